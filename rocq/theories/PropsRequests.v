(** C75: what a kernel asks and what it is answered. *)
From Coq Require Import String.
From Coq Require Import ZArith List Bool Lia.
From Verif Require Import Base Source LongNames GenTokenKind GenOps TokenKind Tokenizer SpecText SpecReader SpecTokenizer Iter Utils Cst Parser SpecParse SpecReparse ErrorReparse SpecRepair RepairProofs ReaderProofs ReparseProofs
  ParserTheorems ParserFlag PropsReader PropsTokenizer PropsParser PropsReparse Link SpecLink LinkProofs LinkTotal PropsLink LinkRead PropsLinkRead Requests RequestsProofs SpecRequests.
Import ListNotations.
Local Open Scope string_scope.
Local Open Scope list_scope.
Local Open Scope Z_scope.

(** ** Parsing *)

(** What is answered was asked for in the documented way, and the answer is one expression: the trees
    of the parse with the options that were meant (or why there are none), its issues and its places. *)
Theorem C75_parse : forall c tx fl alnum dbg args q ps q', concrete_parse_bytes c tx fl alnum dbg args q = Ok (ps, q') ->
  exists input o b l s', bytes_request alnum args input o b /\ parse_cst_seq o dbg b input = Ok (l, s') /\
    (0 < o_tab_width o -> answers q ps (fun ab => report_form (compat c) tx (lg (tz s')) (nodes_or_reason (compat c) ab input (map (of_cst fl) l)))).
Proof.
  intros c tx fl alnum dbg args q ps q' H. rewrite parse_six in H. destruct (six_Ok _ _ _ _ _ H) as (input & o & b & B). rewrite (six_valid _ _ _ _ _ _ _ B) in H.
  unfold parse_put, wlift in H. destruct (parse_cst_seq o dbg b input) as [[l s']| |] eqn:E; try discriminate. cbn [rbind] in H.
  exists input, o, b, l, s'. split; [exact B|]. split; [exact E|]. intros Ht. destruct (C57_result c _ q ps q' H) as (e & D & U & F). exists e. split; [exact D|]. split; [exact U|].
  apply of_log_form in F. eapply report_weaken; [|exact F]. intros es X. pose proof (public_flag o dbg b input l s' Ht E) as W. cbn beta in X. split.
  - intros W1. apply W in W1. rewrite W1 in X. exact X.
  - intros W1. destruct (l_flag (lg (tz s'))) as [u|]; [eauto|]. exfalso. apply W1, W. reflexivity.
Qed.
Print Assumptions C75_parse.

(** Every question asked in the documented way is answered, when nothing is missing in the text. *)
Theorem C75_parse_answered : forall c tx fl alnum args input o b q, asserts c = false -> sound_texts tx -> bytes_request alnum args input o b ->
  0 < o_tab_width o -> ~ has_surrogate_escape input ->
  exists l s', parse_cst_raw o false keep b input = Ok (l, s') /\
    (complete l -> exists ps q', concrete_parse_bytes c tx fl alnum false args q = Ok (ps, q')).
Proof.
  intros c tx fl alnum args input o b q Ha Hx B Ht Hs. destruct (C31_total o false keep b input Ht Hs) as (l & s' & E & _); [intros op ch; eexists; reflexivity|discriminate|].
  exists l, s'. split; [exact E|]. intros C. rewrite parse_six, (six_valid _ _ _ _ _ _ _ B). unfold parse_put, wlift.
  rewrite (proj2 (public_complete o false b input l s' Ht C) E). cbn [rbind].
  destruct (parse_facts o false keep b input l s' Ht keep_ok E) as (s0 & ts & z' & _ & _ & _ & _ & _ & Es & _ & HR & _). subst s'. cbn [tz].
  refine (total_result c tx Ha Hx o input z' _ HR _ q). intros F. apply (LinkTotal.parse_total o false b input l (mkp z' [] [] []) c fl Ht); [|exact E]. apply (parse_flag o false b input l (mkp z' [] [] []) Ht E). exact F.
Qed.
Print Assumptions C75_parse_answered.

(** Whatever the session and the settings are, the answer is the same; and a question has one meaning. *)
Theorem C75_nothing_else_matters : forall c tx fl alnum dbg args args' input o b q, bytes_request alnum args input o b -> bytes_request alnum args' input o b ->
  concrete_parse_bytes c tx fl alnum dbg args q = concrete_parse_bytes c tx fl alnum dbg args' q /\ tokenize_bytes_call c fl alnum args q = tokenize_bytes_call c fl alnum args' q.
Proof. intros c tx fl alnum dbg args args' input o b q H H'. rewrite !parse_six, !tokenize_six, !(six_valid _ _ _ _ _ _ _ H), !(six_valid _ _ _ _ _ _ _ H'). auto. Qed.
Print Assumptions C75_nothing_else_matters.
Theorem C75_one_meaning : forall alnum args input o b input' o' b', bytes_request alnum args input o b -> bytes_request alnum args input' o' b' -> input' = input /\ o' = o /\ b' = b.
Proof. exact bytes_request_one. Qed.
Print Assumptions C75_one_meaning.

(** ** Tokens *)

Theorem C75_tokenize : forall c fl alnum args q ps q', tokenize_bytes_call c fl alnum args q = Ok (ps, q') ->
  exists input o b, bytes_request alnum args input o b /\
    (0 < o_tab_width o -> answers q ps (fun ab es =>
       (well_formed_no_bom input -> exists ts, tokenize_bytes o b input = Ok (TOk ts) /\ seq_form (compat c) ab (map (of_cst fl) (map Tok ts)) es) /\
       (~ well_formed_no_bom input -> exists u, es = missing_answer u))).
Proof.
  intros c fl alnum args q ps q' H. rewrite tokenize_six in H. destruct (six_Ok _ _ _ _ _ H) as (input & o & b & B). rewrite (six_valid _ _ _ _ _ _ _ B) in H.
  unfold tokenize_put, wlift in H. destruct (tokenize_bytes o b input) as [r| |] eqn:E; try discriminate. cbn [rbind] in H.
  exists input, o, b. split; [exact B|]. intros Ht. pose proof (tokenize_flag o b input r Ht E) as W. destruct r as [ts|u].
  - rewrite <- (map_map Tok (of_cst fl)) in H. destruct (C57_sequence c _ q ps q' H) as (e & D & U & F). exists e. split; [exact D|]. split; [exact U|]. split; [intros _; eauto|].
    intros N. exfalso. apply N, W. eauto.
  - assert (N : ~ well_formed_no_bom input) by (intros W1; apply W in W1 as [ts X]; discriminate X). injection H as <- <-.
    assert (D : denotes (PFun "System`List" 1 :: put_unsafe u) (missing_answer u)).
    { unfold missing_answer, missing_form, fn, put_unsafe. apply d_fun; [|reflexivity]. rewrite <- (app_nil_r (_ :: _)). apply d_cons; [|apply d_nil]. apply d_fun; [|reflexivity].
      change [PStr (bytes_of_string (missing_reason u))] with ([PStr (bytes_of_string (missing_reason u))] ++ []). apply d_cons; [|apply d_nil]. destruct u; apply d_str. }
    exists (missing_answer u). split; [exact D|]. split; [intros e' D'; exact (denotes_unique _ _ _ D D')|]. split; [intros W1; contradiction|eauto].
Qed.
Print Assumptions C75_tokenize.
Theorem C75_tokenize_answered : forall c fl alnum args input o b q, asserts c = false -> bytes_request alnum args input o b -> 0 < o_tab_width o -> ~ has_surrogate_escape input ->
  exists ts s', tokenize_raw o b input = Ok (ts, s') /\
    (Forall (fun t => ~ unterminated_kind (t_kind t)) ts -> exists ps q', tokenize_bytes_call c fl alnum args q = Ok (ps, q')).
Proof.
  intros c fl alnum args input o b q Ha B Ht Hs. destruct (C17_total o b input Ht Hs) as (ts & s' & E). exists ts, s'. split; [exact E|]. intros T.
  rewrite tokenize_six, (six_valid _ _ _ _ _ _ _ B). unfold tokenize_put, wlift. pose proof (raw_flag o b input ts s' Ht E) as F. destruct (l_flag (lg s')) as [u|] eqn:Ef.
  - destruct (C28_malformed o b input ts s' Ht E) as [e ->]; [intros W; apply F in W; discriminate|]. cbn [rbind]. eexists _, _. reflexivity.
  - assert (W : well_formed_no_bom input) by (apply F; reflexivity). rewrite (C28_terminated o b input ts s' Ht W E T). cbn [rbind].
    exact (tokens_can_be_put c fl o b input ts s' Ha Ht W E q).
Qed.
Print Assumptions C75_tokenize_answered.

(** ** One token *)

(** Only as much as the token is read, so malformed bytes behind it need not be noticed. *)
Theorem C75_leaf : forall c tx fl alnum args q ps q', concrete_parse_leaf c tx fl alnum args q = Ok (ps, q') ->
  exists input m o b t s', leaf_request alnum args input m o b /\
    (0 < o_tab_width o -> (exists s, handle_first_line o b (reader_new o input) = Ok (tt, s) /\ ask o (asked_for m) s = Ok (t, s')) /\ (b = NotScript -> exists r, input = t_text t ++ r) /\
     answers q ps (fun ab => report_form (compat c) tx (lg s') (fun es =>
       seq_form (compat c) ab [of_cst fl (Tok t)] es \/ ~ well_formed_no_bom input /\ exists u, es = missing_answer u))).
Proof.
  intros c tx fl alnum args q ps q' H. destruct (leaf_Ok _ _ _ _ _ _ _ H) as (input & m & o & b & B). rewrite (leaf_valid _ _ _ _ _ _ _ _ _ _ B) in H.
  unfold leaf_put, wlift in H. destruct (parse_to_token o b m input) as [[t s']| |] eqn:E; try discriminate. cbn [rbind] in H.
  destruct (Z.ltb_spec 0 (o_tab_width o)) as [Ht|Ht]; [|exists input, m, o, b, t, s'; split; [exact B|lia]].
  destruct (leaf_facts o b m input t s' Ht E) as (s & s1 & F1 & F2 & _ & _ & _ & _ & El). rewrite El in H.
  exists input, m, o, b, t, s1. split; [exact B|]. intros _. split; [eauto|]. split; [intros ->; exact (leaf_text o m input t s' Ht E)|].
  destruct (C57_result c _ q ps q' H) as (e & D & U & F). exists e. split; [exact D|]. split; [exact U|].
  apply of_log_form in F. eapply report_weaken; [|exact F]. intros es X. cbn beta in X. destruct (l_flag (lg s1)) as [u|] eqn:Ef; [right|left; exact X].
  split; [|eauto]. intros W. rewrite <- El, (leaf_flag o b m input t s' Ht E W) in Ef. discriminate.
Qed.
Print Assumptions C75_leaf.
Theorem C75_leaf_answered : forall c tx fl alnum args input m o b q, asserts c = false -> sound_texts tx -> leaf_request alnum args input m o b ->
  0 < o_tab_width o -> ~ has_surrogate_escape input -> well_formed_no_bom input -> exists ps q', concrete_parse_leaf c tx fl alnum args q = Ok (ps, q').
Proof.
  intros c tx fl alnum args input m o b q Ha Hx B Ht Hs W. rewrite (leaf_valid _ _ _ _ _ _ _ _ _ _ B). unfold leaf_put, wlift.
  destruct (leaf_total o b m input Ht Hs) as (t & s' & E). rewrite E. cbn [rbind]. destruct (leaf_facts o b m input t s' Ht E) as (s & s1 & _ & _ & I1 & R1 & R2 & A & El). rewrite El.
  refine (total_result c tx Ha Hx o input s1 _ R2 _ q). intros _. unfold put_nodes. apply total_put_seq. constructor; [|constructor].
  exact (asked_total c fl Ha o (asked_for m) input s t s1 Ht W R1 I1 A).
Qed.
Print Assumptions C75_leaf_answered.

(** ** Strings, kinds of tokens, containers *)

Theorem C75_safe_string : forall alnum args q, 
  (forall ps q', safe_string_call alnum args q = Ok (ps, q') -> exists s input, args = [s; IBytes input] /\ session_arg s /\ q' = q /\
     (well_formed_no_bom input -> ps = [PStr input]) /\ (~ well_formed_no_bom input -> exists u, denotes ps (missing_form (UnsafeEncoding u)))) /\
  (forall s input, args = [s; IBytes input] -> session_arg s -> exists ps q', safe_string_call alnum args q = Ok (ps, q')).
Proof.
  intros alnum args q.
  assert (K : forall s input, session_arg s -> exists r, safe_string (mkopts ConvLineColumn 4 true true true alnum) input = Ok r /\ safe_string_call alnum [s; IBytes input] q =
     Ok (match r with SOk t => [PStr t] | SErr u => put_unsafe u end, q) /\ (well_formed_no_bom input -> r = SOk input) /\ (~ well_formed_no_bom input -> exists u, r = SErr u)).
  { intros s input Hs. destruct (C04_safe_string (mkopts ConvLineColumn 4 true true true alnum) input eq_refl) as [S1 S2]. apply read_session_Ok in Hs as [n Hs].
    pose proof (flag_iff (mkopts ConvLineColumn 4 true true true alnum) input eq_refl) as (cs & s2 & Er & Ef).
    assert (D : exists r, safe_string (mkopts ConvLineColumn 4 true true true alnum) input = Ok r).
    { destruct (l_flag (lg s2)) as [u|] eqn:Efl; [|rewrite S1; [eauto|]; apply Ef; reflexivity]. destruct S2 as [e S2]; [intros W; apply Ef in W; discriminate|]. eauto. }
    destruct D as [r D]. exists r. split; [exact D|]. split.
    - unfold safe_string_call, wlift. rewrite Hs. cbn [rbind read_bytes]. rewrite D. cbn [rbind]. destruct r; reflexivity.
    - split; [intros W; specialize (S1 W); congruence|]. intros W. destruct (S2 W) as [e S3]. exists e. congruence. }
  split.
  - intros ps q' H. destruct args as [|s [|bytes [|]]]; try discriminate. pose proof H as H0. unfold safe_string_call, wlift in H0.
    destruct (read_session s) as [n| |] eqn:Es; try discriminate. cbn [rbind] in H0. destruct bytes as [|input]; try discriminate.
    assert (Hs : session_arg s) by (apply read_session_Ok; eauto). destruct (K s input Hs) as (r & _ & Ec & K1 & K2). rewrite Ec in H. injection H as <- <-.
    exists s, input. split; [reflexivity|]. split; [exact Hs|]. split; [reflexivity|]. split; [intros W; rewrite (K1 W); reflexivity|]. intros W. destruct (K2 W) as [u ->]. exists u.
    unfold missing_form, fn, put_unsafe. apply d_fun; [|reflexivity].
    change [PStr (bytes_of_string (missing_reason u))] with ([PStr (bytes_of_string (missing_reason u))] ++ []). apply d_cons; [|apply d_nil]. destruct u; apply d_str.
  - intros s input -> Hs. destruct (K s input Hs) as (r & _ & Ec & _). eauto.
Qed.
Print Assumptions C75_safe_string.

Theorem C75_token_is_empty : forall args q ps q', token_is_empty args q = Ok (ps, q') <->
  exists s k, args = [IExpr (ESym s)] /\ tk_from_symbol s = Some k /\ ps = [PExpr (ESym (if isEmpty k then "System`True" else "System`False"))] /\ q' = q.
Proof.
  intros args q ps q'. split.
  - intros H. destruct args as [|[e|] [|]]; try discriminate. unfold token_is_empty, wlift in H. cbn [get_expr rbind] in H.
    unfold kind_of in H. destruct e as [s| | | |]; try discriminate. cbn [as_symbol] in H. unfold of_option, expected_f in H. cbn [rbind] in H. destruct (tk_from_symbol s) as [k|] eqn:E; try discriminate.
    cbn [expected rbind] in H. injection H as <- <-. exists s, k. auto.
  - intros (s & k & -> & E & -> & ->). unfold token_is_empty, wlift. cbn [get_expr rbind]. unfold kind_of. cbn [as_symbol]. unfold of_option, expected_f. cbn [rbind]. rewrite E. reflexivity.
Qed.
Print Assumptions C75_token_is_empty.

(** A container that was sent and comes back as an argument is sent back as it was, but for the two
    kinds of newlines: see [container_told]. *)
Theorem C75_round_trip : forall c x cell q ps q' q2, readable_mode c (ct_kind x) -> container_readable x -> (forall e, carried_by x e -> settled e = e) ->
  no_abort q -> put_container c x q = Ok (ps, q') ->
  exists e, denotes ps e /\ (forall e', denotes ps e' -> e' = e) /\ round_trip_test c cell [IExpr (settled e)] q2 = put_container c (container_told x) q2.
Proof.
  intros c x cell q ps q' q2 M R C NA H. destruct (C58_container c x cell M R C q ps q' NA H) as (e & D & U & Er). exists e. split; [exact D|]. split; [exact U|].
  unfold round_trip_test, wlift. cbn [get_expr rbind].
  replace (match settled e with ENormal (ESym s) _ => String.eqb s "System`Failure" | _ => false end) with false.
  - rewrite Er. reflexivity.
  - symmetry. destruct (settled e) as [| | | |h l]; try reflexivity. destruct h as [s| | | |]; try reflexivity. destruct (String.eqb_spec s "System`Failure") as [->|]; [|reflexivity].
    cbn [container_of] in Er. change (String.eqb "System`Failure" "CodeParser`ContainerNode") with false in Er. discriminate Er.
Qed.
Print Assumptions C75_round_trip.
(** What tells of a failure is given back. *)
Theorem C75_failure : forall c cell l q, round_trip_test c cell [IExpr (fn "System`Failure" l)] q = Ok ([PExpr (fn "System`Failure" l)], q).
Proof. reflexivity. Qed.
Print Assumptions C75_failure.

(** ** Cases *)
Definition case_cfg := mk_cfg false false false.
Definition case_texts := mk_texts (fun _ => "CodeParser`SyntaxIssue") (fun _ => bytes_of_string "text") (fun _ => 100) (fun _ => []) (fun _ => []) (fun l => l).
Definition case_filling := mk_filling (fun _ => []) (fun _ => EInt 0) (fun _ => BNamed "RowBox").
Definition no_settings : item := IExpr (fn "System`Association" []).
Definition case_args (input : list Z) : list item := [int 77; IBytes input; int 0; int 4; int 1; no_settings].
Example C75_hypotheses : forall alnum, sound_texts case_texts /\
  bytes_request alnum (case_args (text "f[x]")) (text "f[x]") (mkopts ConvLineColumn 4 true true true alnum) CheckFirst /\
  leaf_request alnum [int 0; IBytes (text "a/b.m x"); int 2; int 1; int 4; int 0; int 1; no_settings] (text "a/b.m x") StrFile (mkopts ConvCharacterIndex 4 true true false alnum) NotScript.
Proof.
  intros alnum. split; [intros i; constructor|]. assert (S : forall n, 0 <= n < 2 ^ 63 -> session_arg (int n)) by (intros n H; exists n; auto). split.
  - apply br; [apply S; lia|]. apply (oa alnum true ConvLineColumn 4 CheckFirst _ (mk_quirks true false false)); [lia|reflexivity].
  - apply (lr alnum (int 0) (text "a/b.m x") StrFile EncBox); [apply S; lia|]. apply (oa alnum false ConvCharacterIndex 4 NotScript _ (mk_quirks true false false)); [lia|reflexivity].
Qed.
Definition answered_with (w : W) : option (list packet) := match w [] with Ok (ps, _) => Some ps | _ => None end.
Definition ascii_alnum (c : Z) : bool := (48 <=? c) && (c <=? 57) || (65 <=? c) && (c <=? 90) || (97 <=? c) && (c <=? 122).
Example C75_cases :
  answered_with (concrete_parse_bytes case_cfg case_texts case_filling ascii_alnum false (case_args [97])) =
    Some ([PFun "System`List" 6; PFun "System`List" 1; PFun "CodeParser`LeafNode" 3; PSym "System`Symbol"; PStr [97]; PFun "System`Association" 1; PFun "System`Rule" 2;
           PSym "CodeParser`Source"; PFun "System`List" 2; PFun "System`List" 2; PInt 1; PInt 1; PFun "System`List" 2; PInt 1; PInt 2] ++ repeat (PFun "System`List" 0) 5) /\
  answered_with (concrete_parse_bytes case_cfg case_texts case_filling ascii_alnum false (case_args [97; 255])) <> None /\
  answered_with (concrete_parse_bytes case_cfg case_texts case_filling ascii_alnum false [int 77; IBytes [97]; int 2; int 4; int 1; no_settings]) = None /\
  answered_with (concrete_parse_bytes case_cfg case_texts case_filling ascii_alnum false [int (-1); IBytes [97]; int 0; int 4; int 1; no_settings]) = None /\
  answered_with (tokenize_bytes_call case_cfg case_filling ascii_alnum (case_args (text "a" ++ [237; 160; 128]))) =
    Some [PFun "System`List" 1; PFun "System`Missing" 1; PStr (bytes_of_string "UnsafeCharacterEncoding_StraySurrogate")] /\
  answered_with (safe_string_call ascii_alnum [int 0; IBytes (text "abc")]) = Some [PStr (text "abc")].
Proof. vm_compute. repeat split. discriminate. Qed.
