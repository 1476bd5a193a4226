(** C58: what is sent to the kernel can be read back.  C59: settings. *)
From Coq Require Import String.
From Coq Require Import ZArith List Bool Lia.
From Verif Require Import Base Source LongNames GenTokenKind GenOps TokenKind Tokenizer SpecText SpecReader Utils Cst Parser SpecParse PropsReader Ast Abstract PropsAbstract
  BoxPosition Link SpecLink LinkProofs LinkTotal PropsLink LinkRead LinkPlaces.
Import ListNotations.
Local Open Scope string_scope.
Local Open Scope list_scope.
Local Open Scope Z_scope.

(** no answer is that the kernel asked to abort *)
Definition no_abort (q : list bool) : Prop := Forall (fun b => b = false) q.
Lemma no_abort_existsb : forall q, no_abort q -> existsb (fun b => b) q = false.
Proof. intros q F. induction F as [|b q -> F IH]; [reflexivity|exact IH]. Qed.

(** [sent_and_read w read result]: a run of [w] in which the kernel does not abort puts exactly one
    expression, and reading it gives [result]. *)
Definition sent_and_read {A} (w : W) (read : expr -> A) (result : A) : Prop :=
  forall q ps q', no_abort q -> w q = Ok (ps, q') -> exists e, denotes ps e /\ (forall e', denotes ps e' -> e' = e) /\ read e = result.

(** A node that can be told is read back as it is told: with its kind, operator, text, children and
    position, except that the two kinds of newlines are not told apart. *)
Theorem C58_node : forall c k n, readable_mode c k -> readable k n -> sent_and_read (put_node c n) (node_of c (Some k)) (some (told n)).
Proof.
  intros c k n M R q ps q' NA E. destruct (C57_node c n q ps q' E) as (e & D & U & F). rewrite (no_abort_existsb q NA) in F. exists e. split; [exact D|]. split; [exact U|]. apply node_read; assumption.
Qed.
Print Assumptions C58_node.
(** So different nodes are sent as different packets. *)
Theorem C58_told_apart : forall c k n n' q ps q' q'', readable_mode c k -> readable k n -> readable k n' -> no_abort q ->
  put_node c n q = Ok (ps, q') -> put_node c n' q = Ok (ps, q'') -> told n = told n'.
Proof.
  intros c k n n' q ps q' q'' M R R' NA E E'. destruct (C58_node c k n M R q ps q' NA E) as (e & D & U & F). destruct (C58_node c k n' M R' q ps q'' NA E') as (e' & D' & U' & F').
  rewrite (U e' D') in F'. rewrite F in F'. injection F' as F'. exact F'.
Qed.
Print Assumptions C58_told_apart.

(** Containers: with their kind, nodes or reason, and metadata, once the kernel has evaluated what was
    sent; whatever was in the cell for the kind, it is empty afterwards. *)
Theorem C58_container : forall c x cell, readable_mode c (ct_kind x) -> container_readable x -> (forall e, carried_by x e -> settled e = e) ->
  sent_and_read (put_container c x) (fun e => container_of c cell (settled e)) (some (container_told x), None).
Proof.
  intros c x cell M R C q ps q' NA E. destruct (C57_container c x q ps q' E) as (e & D & U & F). rewrite (no_abort_existsb q NA) in F. exists e. split; [exact D|]. split; [exact U|]. apply container_read; assumption.
Qed.
Print Assumptions C58_container.
(** Without issues and actions there is nothing to evaluate. *)
Theorem C58_plain_container : forall c x cell, readable_mode c (ct_kind x) -> container_readable x -> (forall e, carried_by x e -> settled e = e) ->
  md_issues (ct_meta x) = None -> md_actions (ct_meta x) = None ->
  sent_and_read (put_container c x) (container_of c cell) (some (container_told x), None).
Proof.
  intros c x cell M R C NI NC q ps q' NA E. destruct (C57_container c x q ps q' E) as (e & D & U & F). rewrite (no_abort_existsb q NA) in F. exists e. split; [exact D|]. split; [exact U|].
  pose proof (container_settled _ _ _ _ F NI NC C) as S. rewrite <- S at 1. apply container_read; assumption.
Qed.
Print Assumptions C58_plain_container.

(** The trees of every text that is not too long for positions of 32 bits are read back, as they are and
    without their white space. *)
Theorem C58_parsed_text : forall o dbg b input l s' c fl k m cell, 0 < o_tab_width o -> 1 + (o_tab_width o + 1) * Z.of_nat (length input) < 2 ^ 32 ->
  parse_cst_raw o dbg keep b input = Ok (l, s') -> ~ in_boxes k -> meta_readable k m ->
  (forall e, In (Some e) [md_file m; md_tabs m; md_newlines m; md_simple m; md_complex m] -> settled e = e) ->
  let x := mk_container k (Nodes (map (of_cst fl) l)) m in
  sent_and_read (put_container c x) (fun e => container_of c cell (settled e)) (some (container_told x), None).
Proof.
  intros o dbg b input l s' c fl k m cell Ht B E NB MR C x. destruct (parse_readable o dbg b input l s' fl k Ht E B NB) as [R N].
  apply C58_container; [left; exact NB|split; [exact R|exact MR]|]. intros e [(l0 & n & El & Hn & Hc)|H]; [|exact (C e H)]. injection El as <-. destruct (N n e Hn Hc).
Qed.
Print Assumptions C58_parsed_text.
Theorem C58_aggregated_text : forall o dbg b input l s' l' c fl k m cell, 0 < o_tab_width o -> well_formed_no_bom input -> 1 + (o_tab_width o + 1) * Z.of_nat (length input) < 2 ^ 32 ->
  parse_cst_raw o dbg keep b input = Ok (l, s') -> aggregate_cst_seq l = Ok l' -> ~ in_boxes k -> meta_readable k m ->
  (forall e, In (Some e) [md_file m; md_tabs m; md_newlines m; md_simple m; md_complex m] -> settled e = e) ->
  let x := mk_container k (Nodes (map (of_cst fl) l')) m in
  sent_and_read (put_container c x) (fun e => container_of c cell (settled e)) (some (container_told x), None).
Proof.
  intros o dbg b input l s' l' c fl k m cell Ht W B E Ea NB MR C x. destruct (aggregate_readable o dbg b input l s' l' fl k Ht W E Ea B NB) as [R N].
  apply C58_container; [left; exact NB|split; [exact R|exact MR]|]. intros e [(l0 & n & El & Hn & Hc)|H]; [|exact (C e H)]. injection El as <-. destruct (N n e Hn Hc).
Qed.
Print Assumptions C58_aggregated_text.

(** What an earlier call left in the cell for the kind of the container changes nothing. *)
Theorem C58_no_memory : forall c cell cell' e, fst (container_of c cell e) = fst (container_of c cell' e).
Proof.
  intros c cell cell' e. destruct e as [| | | |h args]; try reflexivity. destruct h as [| |s| |]; try reflexivity. unfold container_of. destruct (String.eqb s "CodeParser`ContainerNode"); [|reflexivity].
  destruct args as [|k [|b [|m [|? ?]]]]; try reflexivity. destruct (container_kind_of k) as [[?|]| |]; try reflexivity.
Qed.
Print Assumptions C58_no_memory.

(** *** What cannot be read back *)

(** the two kinds of newlines *)
Theorem C58_newlines_refuted : forall c t s q, put_node c (NTok TK_ToplevelNewline t s) q = put_node c (NTok TK_InternalNewline t s) q.
Proof. intros c t s q. reflexivity. Qed.
Print Assumptions C58_newlines_refuted.
(** a confidence level in the metadata of a container: it is sent without a rule *)
Definition a_rule (e : expr) : Prop := exists k v, e = rule k v.
Lemma collect_stops : forall A (f : expr -> A) l x r, Forall a_rule l -> rule_of f x = err -> collectf (rule_of f) (l ++ x :: r) = err.
Proof. intros A f l x r F E. induction F as [|y l (k & v & ->) F IH]; cbn [app collectf]; [rewrite E; reflexivity|]. change (rule_of f (rule k v)) with (some (k, f v)). cbn [fbind rbind some]. rewrite IH. reflexivity. Qed.
Lemma meta_stops : forall c ck l x r, Forall a_rule l -> (forall A (f : expr -> A), rule_of f x = err) -> meta_of c ck (fn "System`Association" (l ++ x :: r)) = err.
Proof.
  intros c ck l x r F E. unfold fn. set (z := l ++ x :: r). cbn [meta_of rules_of]. change (String.eqb "System`Association" "System`Association") with true. cbv iota. unfold z. rewrite collect_stops; [reflexivity|exact F|apply E].
Qed.
Lemma given_rules : forall A (o : option A) k v, Forall a_rule (flat_map splice (map settled (given o (fun a => rule k (v a))))).
Proof. intros A [a|] k v; [|constructor]. cbn [given map flat_map]. rewrite settled_rule, splice_rule. repeat constructor. eexists _, _. reflexivity. Qed.
Lemma source_rules : forall cm s rs, rule_form cm s rs -> Forall a_rule rs.
Proof. intros cm s rs []; repeat constructor. eexists _, _. reflexivity. Qed.
Theorem C58_confidence_refuted : forall c x n cell, md_conf (ct_meta x) = Some n -> forall q ps q', put_container c x q = Ok (ps, q') ->
  exists e, denotes ps e /\ forall y, fst (container_of c cell (settled e)) <> some y.
Proof.
  intros c x n cell H q ps q' E. destruct (C57_container c x q ps q' E) as (e & D & U & F). exists e. split; [exact D|].
  assert (X : forall ck em, meta_form (compat c) (ct_meta x) em -> meta_of c ck (settled em) = err).
  { intros ck em G. inversion G as [m' rs issues actions S FI FA]; subst. pose proof (source_rules _ _ _ S) as SR. rewrite settled_assoc, H. cbn [given]. rewrite !map_app, !flat_map_app.
    rewrite (rules_settled _ _ _ S), (rules_spliced _ _ _ S). cbn [map flat_map]. rewrite app_nil_r.
    replace (splice (settled (number_form n))) with [number_form n] by (destruct n; reflexivity).
    assert (Y : forall a b c0 d f r z, Forall a_rule a -> Forall a_rule b -> Forall a_rule c0 -> Forall a_rule d -> Forall a_rule f -> Forall a_rule r ->
      meta_of c ck (fn "System`Association" (a ++ b ++ c0 ++ d ++ f ++ r ++ [number_form n] ++ z)) = err).
    { intros a b c0 d f r z A1 A2 A3 A4 A5 A6. replace (a ++ b ++ c0 ++ d ++ f ++ r ++ [number_form n] ++ z) with ((a ++ b ++ c0 ++ d ++ f ++ r) ++ number_form n :: z) by (rewrite <- !app_assoc; reflexivity).
      apply meta_stops; [repeat (apply Forall_app; split; [assumption|]); assumption|]. intros A g. destruct n; reflexivity. }
    apply Y; try exact SR; try apply (given_rules _ _ _ (fun _ => fn "System`List" issues)); apply (given_rules _ _ _ (fun a => a)). }
  destruct F as [k l es m em F1 F2|k r m em F2]; cbn [ct_meta] in *; rewrite settled_fn by reflexivity; cbn [map]; unfold container_of, fn;
    change (String.eqb "CodeParser`ContainerNode" "CodeParser`ContainerNode") with true; cbv iota; change (settled (ESym (kind_symbol k))) with (ESym (kind_symbol k)); rewrite kind_symbol_read; unfold some at 1;
    destruct (expect (body_of c (Some k) _)) as [[b|]| |]; cbn [fst fbind rbind]; try discriminate; rewrite (X _ _ F2); discriminate.
Qed.
Print Assumptions C58_confidence_refuted.

(** issues and actions, before the kernel has evaluated what was sent *)
Theorem C58_raw_issue_refuted : forall c ck i e, issue_form (compat c) i e -> issue_with (meta_of c ck) e = Panic.
Proof.
  intros c ck i e F. destruct F as [i m acts more (rs & S & ->) _ _]. unfold issue_with. unfold fn at 1, str at 1 2.
  destruct (existsb (String.eqb (wi_make i)) _); [|reflexivity].
  match goal with |- fbind (expect (meta_of c ck ?a)) _ = _ => assert (X : meta_of c ck a = err) end; [|rewrite X; reflexivity].
  apply (meta_stops c ck []); [constructor|reflexivity].
Qed.
Print Assumptions C58_raw_issue_refuted.
(** more sources of an issue *)
Lemma fields_panic : forall A (l : list (expr * A)) k v, field_of k = None -> In (k, v) l -> fields_of l = Panic.
Proof.
  intros A l k v H. induction l as [|[k0 v0] l IH]; [intros []|]. intros [E|Hin].
  - injection E as -> ->. cbn [fields_of]. rewrite H. reflexivity.
  - cbn [fields_of]. rewrite (IH Hin). destruct (field_of k0); reflexivity.
Qed.
Lemma collect_rules : forall A (f : expr -> A) l, Forall a_rule l -> exists rs, collectf (rule_of f) l = some rs /\ forall k v, In (rule k v) l -> In (k, f v) rs.
Proof.
  intros A f l F. induction F as [|x l (k & v & ->) F (rs & IH1 & IH2)]; [exists []; split; [reflexivity|intros k v []]|].
  exists ((k, f v) :: rs). cbn [collectf]. change (rule_of f (rule k v)) with (some (k, f v)). cbn [fbind rbind some]. rewrite IH1. split; [reflexivity|]. intros k' v' [E|H]; [left|right; auto].
  injection E as -> ->. reflexivity.
Qed.
Lemma meta_panics : forall c ck l k v, Forall a_rule l -> In (rule k v) l -> field_of k = None -> meta_of c ck (fn "System`Association" l) = Panic.
Proof.
  intros c ck l k v F Hin H. unfold fn. cbn [meta_of rules_of]. change (String.eqb "System`Association" "System`Association") with true. cbv iota.
  match goal with |- fbind (collectf (rule_of ?f) l) _ = _ => destruct (collect_rules _ f l F) as (rs & E & K); rewrite E end. cbn [fbind rbind some]. rewrite (fields_panic _ rs k _ H (K k v Hin)). reflexivity.
Qed.
Lemma unless_rules : forall A (l : list A) k v, Forall a_rule (flat_map splice (map settled (unless_empty l (rule k v)))).
Proof. intros A [|a l] k v; [constructor|]. cbn [unless_empty map flat_map]. rewrite settled_rule, splice_rule. repeat constructor. eexists _, _. reflexivity. Qed.
Theorem C58_more_sources_refuted : forall c ck i e, issue_form (compat c) i e -> wi_more i <> [] -> In (wi_make i) ["CodeParser`SyntaxIssue"; "CodeParser`EncodingIssue"; "CodeParser`FormatIssue"] ->
  issue_with (meta_of c ck) (settled e) = Panic.
Proof.
  intros c ck i e F NE MK. destruct F as [i m acts more (rs & S & ->) _ _].
  assert (HM : String.eqb (wi_make i) "System`Association" = false) by (destruct MK as [<-|[<-|[<-|[]]]]; reflexivity).
  assert (SX : existsb (String.eqb (wi_make i)) ["CodeParser`SyntaxIssue"; "CodeParser`EncodingIssue"; "CodeParser`FormatIssue"] = true) by (destruct MK as [<-|[<-|[<-|[]]]]; reflexivity).
  rewrite settled_fn by exact HM. cbn [map]. unfold issue_with, fn at 1, str at 1 2. rewrite SX. cbn [settled].
  match goal with |- fbind (expect (meta_of c ck ?a)) _ = _ => assert (X : meta_of c ck a = Panic) end; [|rewrite X; reflexivity].
  rewrite settled_assoc. cbn [map app flat_map]. rewrite settled_assoc, (rules_settled _ _ _ S), (rules_spliced _ _ _ S), !map_app, !flat_map_app.
  change (splice (fn "System`Association" rs)) with rs. eapply meta_panics.
  - repeat (apply Forall_app; split); [exact (source_rules _ _ _ S)|repeat constructor; eexists _, _; reflexivity|apply unless_rules..].
  - do 4 (apply in_or_app; right). destruct (wi_more i); [congruence|]. cbn [unless_empty map flat_map]. rewrite settled_rule, splice_rule. left. reflexivity.
  - vm_compute. reflexivity.
Qed.
Print Assumptions C58_more_sources_refuted.
(** a position between boxes that are not next to each other: it is not sent *)
Theorem C58_spanning_refuted : forall c k tk t l p, in_boxes k -> compat c = true ->
  sent_and_read (put_node c (NTok tk t (SBox (BSpanning l p)))) (node_of c (Some k)) (some (NTok (newline_told tk) t SUnknown)).
Proof.
  intros c k tk t l p B C q ps q' NA E. destruct (C57_node c _ q ps q' E) as (e & D & U & F). exists e. split; [exact D|]. split; [exact U|].
  inversion F as [tk0 t0 src ks m E1 E2| | | | |]; subst. rewrite node_token_eq, (kind_read tk ks E1), fbind_some. change (of_option (as_string (EStr t))) with (some t). rewrite fbind_some.
  destruct E2 as (rs & S & ->). rewrite C in S. inversion S as [H|p0 H P]; subst; [reflexivity|]. exfalso. apply H. right. eauto.
Qed.
Print Assumptions C58_spanning_refuted.

(** *** Cases *)
Definition tree_of (s : string) : list node := match parse_cst_raw default_opts false keep NotScript (bytes_of_string s) with Ok (l, _) => map (of_cst plain) l | _ => [] end.
Lemma tree_readable : forall s k, ~ in_boxes k -> 1 + (o_tab_width default_opts + 1) * Z.of_nat (length (bytes_of_string s)) < 2 ^ 32 ->
  Forall (readable k) (tree_of s) /\ (forall n e, In n (tree_of s) -> ~ carries n e).
Proof.
  intros s k NB B. unfold tree_of. destruct (parse_cst_raw default_opts false keep NotScript (bytes_of_string s)) as [[l s']| |] eqn:E; [|split; [constructor|intros n e []]..].
  exact (parse_readable default_opts false NotScript _ l s' plain k ltac:(vm_compute; reflexivity) E B NB).
Qed.
Definition an_action : action := mk_action (bytes_of_string "fix") (ReplaceText (bytes_of_string ";")) (mkspan (LineCol 1 3) (LineCol 1 4)).
Definition an_issue : wissue := mk_wissue "CodeParser`SyntaxIssue" UnexpectedCarriageReturn (bytes_of_string "m") Remark (SSpan (mkspan (LineCol 1 2) (LineCol 1 3))) 95 [an_action] [bytes_of_string "d"] [].
Definition a_container : container node :=
  mk_container CFile (Nodes (tree_of "f[1]+x;
y")) (mk_wmeta (SSpan (mkspan (LineCol 1 1) (LineCol 2 2))) (Some [an_issue]) None (Some [an_action]) (Some [bytes_of_string "x"]) (Some (EStr (bytes_of_string "a.wl"))) None (Some (fn "System`List" [])) None None).
Ltac positions := repeat match goal with
  | |- _ /\ _ => split
  | |- Forall _ (_ :: _) => constructor
  | |- Forall _ [] => constructor
  | |- position_in CFile _ => split; [intros [X|X]; discriminate X|intros _]
  | |- text_position SUnknown => constructor
  | |- text_position (SSpan {| sp_start := LineCol _ _ |}) => apply tp_lines
  | |- u32 _ => unfold u32
  | |- action_readable CFile an_action => unfold action_readable, an_action; cbn [ac_src]
  | |- ~ in_boxes CFile => intros [X|X]; discriminate X
  | |- _ => lia || reflexivity
  end.
Example C58_container_case : readable_mode release_cfg (ct_kind a_container) /\ container_readable a_container /\ (forall e, carried_by a_container e -> settled e = e) /\
  exists ps, put_container release_cfg a_container [] = Ok (ps, []).
Proof.
  split; [left; intros [X|X]; discriminate X|]. split; [|split].
  - split; [|split; [|split; [reflexivity|split]]]; cbn [a_container ct_kind ct_meta md_source md_issues md_actions].
    + apply tree_readable; [intros [X|X]; discriminate X|vm_compute; reflexivity].
    + positions.
    + constructor; [|constructor]. unfold issue_readable, an_issue. cbn [wi_make wi_src wi_actions wi_more]. split; [left; reflexivity|]. positions.
    + positions.
  - intros e [(l & n & El & Hn & Hc)|H].
    + exfalso. cbn [ct_body a_container] in El. assert (K : forall a b : list node, Nodes a = Nodes b -> b = a) by (intros a b X; injection X as X; symmetry; exact X). apply K in El. subst l. refine (proj2 (tree_readable _ CFile _ _) n e Hn Hc); [intros [X|X]; discriminate X|vm_compute; reflexivity].
    + cbn [a_container ct_meta md_file md_tabs md_newlines md_simple md_complex In] in H. destruct H as [H|[H|[H|[H|[H|[]]]]]]; try discriminate H; injection H as <-; reflexivity.
  - eexists. vm_compute. reflexivity.
Qed.
(** a box is read back with its position, and two trees with different newlines in the same way *)
Example C58_box_case : exists ps e, put_node release_cfg (NBox (BNamed "RowBox") [NTok TK_ToplevelNewline [10] (SBox (BAt [1; 2])); NCode (EInt 1) (EInt 2) (SBox (BBefore [3]))] (SBox (BAfter [1]))) [] = Ok (ps, []) /\ denotes ps e /\
  node_of release_cfg (Some CBox) e = some (NBox (BNamed "RowBox") [NTok TK_InternalNewline [10] (SBox (BAt [1; 2])); NCode (EInt 1) (EInt 2) (SBox (BBefore [3]))] (SBox (BAfter [1]))).
Proof.
  set (n := NBox (BNamed "RowBox") [NTok TK_ToplevelNewline [10] (SBox (BAt [1; 2])); NCode (EInt 1) (EInt 2) (SBox (BBefore [3]))] (SBox (BAfter [1]))).
  assert (X : exists ps, put_node release_cfg n [] = Ok (ps, [])) by (eexists; vm_compute; reflexivity). destruct X as (ps & E).
  assert (P : forall s, box_place s -> position_in CBox s) by (intros s H; split; [intros _; exact H|intros Y; destruct Y; left; reflexivity]).
  destruct (C58_node release_cfg CBox n) with (q := @nil bool) (ps := ps) (q' := @nil bool) as (e & D & _ & F); [right; repeat split; reflexivity| |constructor|exact E|].
  - apply rd_box; [cbn [box_readable]; cbv; tauto|apply P; constructor; repeat constructor; lia|]. constructor; [|constructor; [|constructor]]; [apply rd_token|apply rd_code]; apply P; constructor; repeat constructor; lia.
  - exists ps, e. split; [exact E|]. split; [exact D|]. exact F.
Qed.

(** ** C59: settings *)

Lemma quirk_app : forall l1 l2 q, quirk_rules (l1 ++ l2) q = rbind (quirk_rules l1 q) (quirk_rules l2).
Proof.
  induction l1 as [|[k v] l1 IH]; intros l2 [[a b] c]; [reflexivity|]. cbn [app quirk_rules]. destruct (is_str "InfixBinaryAt" k); [apply IH|]. destruct (is_str "FlattenTimes" k); [apply IH|]. destruct (is_str "OldAtAtAt" k); [apply IH|reflexivity].
Qed.
Definition update (s : setting) (v : option expr) (q : option expr * option expr * option expr) : option expr * option expr * option expr :=
  let '(a, b, c) := q in match s with InfixBinaryAt => (v, b, c) | FlattenTimes => (a, v, c) | OldAtAtAt => (a, b, v) end.
Definition of_setting (s : setting) (q : option expr * option expr * option expr) : option expr :=
  let '(a, b, c) := q in match s with InfixBinaryAt => a | FlattenTimes => b | OldAtAtAt => c end.
Lemma quirk_last : forall l q, exists q', quirk_rules (map (fun x => (str (setting_name (fst x)), snd x)) l) q = Ok q' /\
  forall s, (exists l1 e l2, l = l1 ++ (s, e) :: l2 /\ (forall x, In x l2 -> fst x <> s) /\ of_setting s q' = Some e) \/ ((forall x, In x l -> fst x <> s) /\ of_setting s q' = of_setting s q).
Proof.
  induction l as [|[s v] l IH]; intros q; [exists q; split; [destruct q as [[a b] c]; reflexivity|intros s; right; split; [intros x []|reflexivity]]|].
  destruct (IH (update s (Some v) q)) as (q' & E & H). exists q'. split.
  - destruct q as [[a b] c]. destruct s; exact E.
  - intros s'. destruct (H s') as [(l1 & e & l2 & -> & N & F)|[N F]].
    + left. exists ((s, v) :: l1), e, l2. auto.
    + assert (D : s' = s \/ s' <> s) by (destruct s, s'; (left; reflexivity) || (right; discriminate)). destruct D as [->|D].
      * left. exists [], v, l. split; [reflexivity|]. split; [exact N|]. rewrite F. destruct q as [[a b] c], s; reflexivity.
      * right. split; [intros x [<-|Hx]; [cbn [fst]; congruence|auto]|]. rewrite F. destruct q as [[a b] c], s, s'; try reflexivity; congruence.
Qed.
Lemma setting_rules : forall l, rules_of (fun r => r) (fn "System`Association" (map setting_rule l)) = some (map (fun x => (str (setting_name (fst x)), snd x)) l).
Proof.
  intros l. unfold fn. cbn [rules_of]. change (String.eqb "System`Association" "System`Association") with true. cbv iota.
  induction l as [|[s v] l IH]; [reflexivity|]. cbn [map collectf]. change (rule_of (fun r => r) (setting_rule (s, v))) with (some (str (setting_name s), v)). cbn [fbind rbind some fst snd]. rewrite IH. reflexivity.
Qed.
Lemma bool_says : forall d e, says d e (match bool_of e with Some v => v | None => d end).
Proof.
  intros d e. unfold bool_of, is_sym. destruct e as [| |s| |]; try (apply says_nothing; discriminate). destruct (String.eqb_spec s "System`True") as [->|N]; [constructor|].
  destruct (String.eqb_spec s "System`False") as [->|N']; [constructor|]. apply says_nothing; congruence.
Qed.

(** Every association of known settings is read: the last rule for each setting counts, values that
    are neither True nor False leave the default. *)
Theorem C59_settings : forall l, exists q, quirks_of (fn "System`Association" (map setting_rule l)) = some q /\
  set_to InfixBinaryAt true l (qs_infix_binary_at q) /\ set_to FlattenTimes false l (qs_flatten_times q) /\ set_to OldAtAtAt false l (qs_old_at_at_at q).
Proof.
  intros l. destruct (quirk_last l (None, None, None)) as ([[a b] c] & E & H). unfold quirks_of. rewrite setting_rules. cbn [fbind rbind some]. rewrite E. cbn [rbind]. eexists. split; [reflexivity|].
  cbn [qs_infix_binary_at qs_flatten_times qs_old_at_at_at].
  assert (Q : forall s d o, of_setting s (a, b, c) = o -> set_to s d l (match o with Some e => match bool_of e with Some v => v | None => d end | None => d end)).
  { intros s d o <-. destruct (H s) as [(l1 & e & l2 & -> & N & ->)|[N ->]]; [apply set_by; [exact N|apply bool_says]|]. destruct s; apply not_set; exact N. }
  split; [|split]; apply Q; reflexivity.
Qed.
Print Assumptions C59_settings.
(** and in one way only *)
Theorem C59_one_meaning : forall s d l b b', set_to s d l b -> set_to s d l b' -> b = b'.
Proof.
  assert (S : forall d e b b', says d e b -> says d e b' -> b = b') by (intros d e b b' H; destruct H; intros H'; inversion H'; subst; congruence).
  intros s d l b b' H H'. destruct H as [l1 e l2 b N H|l N].
  - inversion H' as [l1' e' l2' b2 N' H2 E|l' N' E]; subst.
    + assert (e' = e).
      { clear H H' H2. revert l1' E. induction l1 as [|x l1 IH]; intros [|x' l1'] E; cbn [app] in E; injection E as E1 E2.
        - congruence.
        - subst. exfalso. apply (N (s, e')); [apply in_or_app; right; left; reflexivity|reflexivity].
        - subst. exfalso. apply (N' (s, e)); [apply in_or_app; right; left; reflexivity|reflexivity].
        - exact (IH _ E2). }
      subst. eapply S; eauto.
    + exfalso. apply (N' (s, e)); [apply in_or_app; right; left; reflexivity|reflexivity].
  - inversion H' as [l1' e' l2' b2 N' H2 E|l' N' E]; subst; [|reflexivity]. exfalso. apply (N (s, e')); [apply in_or_app; right; left; reflexivity|reflexivity].
Qed.
Print Assumptions C59_one_meaning.
(** Settings sent as three rules come back. *)
Theorem C59_given_back : forall q, let truth (b : bool) := ESym (if b then "System`True" else "System`False") in
  quirks_of (fn "System`Association" (map setting_rule [(InfixBinaryAt, truth (qs_infix_binary_at q)); (FlattenTimes, truth (qs_flatten_times q)); (OldAtAtAt, truth (qs_old_at_at_at q))])) = some q.
Proof. intros [[] [] []]; vm_compute; reflexivity. Qed.
Print Assumptions C59_given_back.
(** A rule for anything else is a panic. *)
Theorem C59_unknown_setting : forall l k v l', (forall s, k <> str (setting_name s)) -> quirks_of (fn "System`Association" (map setting_rule l ++ rule k v :: map setting_rule l')) = Panic.
Proof.
  intros l k v l' N.
  assert (K : forall s, is_str (setting_name s) k = false).
  { intros s. unfold is_str. destruct k as [|t| | |]; try reflexivity. destruct (zlist_eqb t (bytes_of_string (setting_name s))) eqn:E; [|reflexivity]. exfalso. apply (N s). unfold str. f_equal. apply zlist_eqb_eq. exact E. }
  assert (R : rules_of (fun r => r) (fn "System`Association" (map setting_rule l ++ rule k v :: map setting_rule l')) = some (map (fun x => (str (setting_name (fst x)), snd x)) l ++ (k, v) :: map (fun x => (str (setting_name (fst x)), snd x)) l')).
  { pose proof (setting_rules l') as E'. unfold fn in *. cbn [rules_of] in *. change (String.eqb "System`Association" "System`Association") with true in *. cbv iota in *.
    induction l as [|[s w] l IH]; cbn [map app collectf].
    - change (rule_of (fun r => r) (rule k v)) with (some (k, v)). cbn [fbind rbind some]. rewrite E'. reflexivity.
    - change (rule_of (fun r => r) (setting_rule (s, w))) with (some (str (setting_name s), w)). cbn [fbind rbind some fst snd]. rewrite IH. reflexivity. }
  unfold quirks_of. rewrite R. cbn [fbind rbind some]. rewrite quirk_app. destruct (quirk_last l (None, None, None)) as ([[a b] c] & -> & _). cbn [rbind quirk_rules].
  pose proof (K InfixBinaryAt) as K1. pose proof (K FlattenTimes) as K2. pose proof (K OldAtAtAt) as K3. cbn [setting_name] in K1, K2, K3. rewrite K1, K2, K3. reflexivity.
Qed.
Print Assumptions C59_unknown_setting.
Example C59_case : quirks_of (fn "System`Association" (map setting_rule [(FlattenTimes, ESym "System`False"); (InfixBinaryAt, ESym "System`False"); (FlattenTimes, ESym "System`True"); (InfixBinaryAt, EInt 1)])) = some (mk_quirks true true false).
Proof. vm_compute. reflexivity. Qed.
