(** Proofs for C57: whatever the parser makes of a text can be put. *)
From Coq Require Import String.
From Coq Require Import ZArith List Bool Lia.
From Verif Require Import Base Source LongNames ByteDecoder CharDecoder Decode SpecText Iter
  TextProofs Logic LongNamesProofs WlDecode SpecReader ReaderProofs GenTokenKind TokenKind TableProofs Format FormatProofs Tokenizer TokLogic
  TokenizerProofs SpecTokenizer TokenLoop TokSim TokAgree TokResults GenPrec GenOps GenSymbols GenParselets Parselets Cst SpecCst CstProofs Parser SpecParser SpecParse
  ParserLogic ParserRules ParserProofs ParserResults ParserTheorems ReparseProofs Ast Abstract SpecAbstract AbstractProofs AbstractShape BoxPosition Link.
Import ListNotations.
Local Open Scope string_scope.
Local Open Scope list_scope.
Local Open Scope Z_scope.

Local Notation "a ;+ b" := (wseq a b) (at level 62, right associativity).

(** ** Sources *)

Lemma last_map_res : forall A B (f : A -> B) l d, l <> [] -> last (map f l) (f d) = f (last l d).
Proof. intros A B f l d. induction l as [|a [|b l] IH]; intros N; [congruence|reflexivity|]. cbn [map last] in *. apply IH. discriminate. Qed.
Lemma sources_of_spans : forall l : list (res span), sources_span (map (rmap SSpan) l) = rmap SSpan (sources_between l).
Proof.
  intros [|a l]; [reflexivity|]. unfold sources_span, sources_between. cbn [map]. change (rmap SSpan a :: map (rmap SSpan) l) with (map (rmap SSpan) (a :: l)).
  replace (last (map (rmap SSpan) (a :: l)) Panic) with (rmap SSpan (last (a :: l) Panic)) by (rewrite <- (last_map_res _ _ (rmap SSpan)) by discriminate; reflexivity).
  destruct a as [a| |]; try reflexivity. cbn [rmap rbind]. destruct (last _ Panic) as [b| |]; reflexivity.
Qed.
Lemma source_of_tree : forall fl n, node_source (of_cst fl n) = rmap SSpan (get_source n).
Proof.
  intros fl. apply (cst_ind' (fun n => node_source (of_cst fl n) = rmap SSpan (get_source n))). intros n IH.
  assert (Q : forall l, Forall (fun n => node_source (of_cst fl n) = rmap SSpan (get_source n)) l -> map node_source (map (of_cst fl) l) = map (rmap SSpan) (map get_source l)).
  { intros l F. rewrite !map_map. apply map_ext_in. rewrite Forall_forall in F. exact F. }
  destruct n as [t|h m op body|e ch|k op ch|b ch src|a b src]; try reflexivity.
  - cbn [children] in IH. assert (Hb : Forall (fun n => node_source (of_cst fl n) = rmap SSpan (get_source n)) body) by (destruct h; [apply Forall_app in IH as [_ IH]|apply Forall_cons_iff in IH as [_ IH]]; exact IH).
    cbn [of_cst node_source get_source]. rewrite (Q _ Hb), sources_of_spans.
    match goal with |- rbind ?x _ = rmap SSpan (rbind ?y _) => assert (E : x = rmap SSpan y) end.
    { destruct h as [[|n l]|n]; cbn [children map app] in *; [reflexivity|..]; apply Forall_cons_iff in IH as [IH _]; exact IH. }
    rewrite E. match goal with |- rbind (rmap _ ?y) _ = _ => destruct y as [a| |]; try reflexivity end. cbn [rmap rbind]. destruct (sources_between (map get_source body)) as [b| |]; reflexivity.
  - cbn [of_cst node_source get_source children] in *. rewrite (Q _ IH). apply sources_of_spans.
  - cbn [of_cst node_source get_source children] in *. rewrite (Q _ IH). apply sources_of_spans.
Qed.

(** ** Putting never fails *)

Definition total (w : W) : Prop := forall q, exists ps q', w q = Ok (ps, q').
Lemma total_do : forall l, total (wdo l). Proof. intros l q. eexists _, _. reflexivity. Qed.
Lemma total_seq : forall a b, total a -> total b -> total (a ;+ b).
Proof. intros a b Ha Hb q. unfold wseq. destruct (Ha q) as (p1 & q1 & ->). cbn [rbind]. destruct (Hb q1) as (p2 & q2 & ->). eexists _, _. reflexivity. Qed.
Lemma total_all : forall l, Forall total l -> total (wall l).
Proof. intros l F. induction F; cbn [wall]; [apply total_do|apply total_seq; auto]. Qed.
Lemma total_list : forall n l, Forall total l -> total (wdo [PFun "System`List" n] ;+ wall l).
Proof. intros n l F. apply total_seq; [apply total_do|apply total_all, F]. Qed.
Lemma total_element : forall a, total a -> total (put_element a).
Proof. intros a H [|[|] q]; unfold put_element; [apply H|eexists _, _; reflexivity|apply H]. Qed.
Lemma total_put_seq : forall l, Forall total l -> total (put_seq l).
Proof. intros l F. apply total_list. rewrite Forall_forall in *. intros x H. apply in_map_iff in H as (a & <- & H). apply total_element. auto. Qed.
Lemma total_lift : forall A (a : A) k, total (k a) -> total (wlift (Ok a) k). Proof. intros A a k H. exact H. Qed.
Lemma total_named : forall f op s, op_to_symbol f op = Some s -> total (put_operator f op). Proof. intros f op s E. unfold put_operator. rewrite E. apply total_do. Qed.

(** a span that is put as two places: both lines and columns, or both indexes from 1 on *)
Definition two_places (s : span) : Prop := loc_leb (sp_start s) (sp_end s) = Some true /\ match sp_end s with CharIdx b => 1 <= b | _ => True end.
Definition from_one (l : loc) : Prop := match l with CharIdx b => 1 <= b | _ => True end.
Lemma from_one_up : forall a b, from_one a -> loc_leb a b = Some true -> from_one b.
Proof. intros [x y|x] [z w|z]; cbn; intros H E; try discriminate E; auto. injection E as E. lia. Qed.
Lemma total_span : forall c s, two_places s -> total (put_source c (SSpan s)).
Proof.
  intros c [[a b|a] [d e|d]] [H1 H2]; cbn [sp_start sp_end] in *; try discriminate H1; unfold put_source; cbn [include_source negb]; apply total_seq; try apply total_do; cbn [put_source_rhs put_span_rhs].
  assert (E : (d =? 0) = false) by lia. rewrite E. apply total_do.
Qed.
Lemma total_kind : forall k, In k LEAF_KINDS -> total (put_kind k).
Proof.
  intros k H. assert (X : forallb (fun k => match tk_to_symbol k with Some _ => true | None => false end) LEAF_KINDS = true) by (vm_compute; reflexivity).
  pose proof (proj1 (forallb_forall _ _) X _ H) as Y. cbn beta in Y. unfold put_kind. destruct (tk_to_symbol k); [apply total_do|discriminate Y].
Qed.

(** every operator has its symbol *)
Definition named (n : cst) : Prop :=
  match n with
  | Op k op _ => exists s, op_to_symbol (family_of k) op = Some s
  | Call _ _ op _ => exists s, op_to_symbol call_family op = Some s
  | _ => True
  end.

Local Opaque put_source put_seq put_kind put_operator.
Lemma total_tree : forall c fl n a e, from_one a -> solid n -> Forall named (nodes n) -> Forall clean_token (toks n) -> spaced a (toks n) e -> total (put_node c (of_cst fl n)).
Proof.
  intros c fl. apply (cst_ind' (fun n => forall a e, from_one a -> solid n -> Forall named (nodes n) -> Forall clean_token (toks n) -> spaced a (toks n) e -> total (put_node c (of_cst fl n)))).
  intros n IH a e Ha S N K SP.
  pose proof (get_source_spaced n a e S SP) as (s & Es & _ & L1 & L2 & L3).
  assert (Ts : two_places s) by (split; [exact L2|]; exact (from_one_up _ _ (from_one_up _ _ Ha L1) L2)).
  assert (Q : forall l, incl l (children n) -> (exists x y, children n = x ++ l ++ y) -> Forall solid l -> Forall total (map (put_node c) (map (of_cst fl) l))).
  { intros l Hl (x & y & Ec) Sl. rewrite Forall_forall. intros w Hw. apply in_map_iff in Hw as (m & <- & Hw). apply in_map_iff in Hw as (ch & <- & Hch).
    assert (Hc : In ch (nodes n)) by (apply child_nodes; auto).
    destruct (nodes_toks n ch Hc) as (u & v & Eu). pose proof SP as SP'. rewrite Eu in SP'. apply spaced_app in SP' as (b1 & S1 & SP'). apply spaced_app in SP' as (b2 & S2 & _).
    rewrite Forall_forall in IH. apply (IH ch (Hl _ Hch) b1 b2).
    - exact (from_one_up _ _ Ha (spaced_le _ _ _ S1)).
    - rewrite Forall_forall in Sl. auto.
    - rewrite Forall_forall in *. intros m Hm. apply N. eapply nodes_trans; eauto.
    - eapply leaf_down; eauto.
    - exact S2. }
  assert (N0 : named n) by (rewrite Forall_forall in N; apply N, nodes_self).
  assert (Qs : forall l, incl l (children n) -> (exists x y, children n = x ++ l ++ y) -> Forall solid l -> total (put_seq (map (put_node c) (map (of_cst fl) l)))).
  { intros l H1 H2 H3. apply total_put_seq, Q; auto. }
  pose proof (source_of_tree fl n) as En. rewrite Es in En. cbn [rmap rbind] in En.
  inversion S as [t|h m op body N1 N2 S1 S2|er ch N1 S1|k op ch N1 S1]; subst; cbn [of_cst put_node].
  - cbn in Es. injection Es as <-. unfold put_token. rewrite toks_tok in K || cbn [toks] in K. inversion K as [|? ? [[_ K1] K2] _]; subst.
    repeat apply total_seq; [apply total_do|apply total_kind; exact K1| |apply total_span; exact Ts]. unfold put_text; rewrite K2; apply total_do.
  - cbn [of_cst] in En. rewrite En. apply total_lift. rewrite children_call in *. destruct N0 as [s0 N0].
    assert (B : exists x, sources_span (map node_source (map (of_cst fl) body)) = Ok (SSpan x) /\ two_places x).
    { rewrite toks_eq in SP by discriminate. rewrite children_call, flat_map_app in SP. apply spaced_app in SP as (b & SP1 & SP2).
      pose proof (get_source_spaced (SynErr ExpectedSymbol body) b e) as G. destruct G as (x & E & _ & M1 & M2 & _).
      - constructor; auto.
      - rewrite toks_eq by discriminate. exact SP2.
      - exists x. split; [|split; [exact M2|exact (from_one_up _ _ (from_one_up _ _ (from_one_up _ _ Ha (spaced_le _ _ _ SP1)) M1) M2)]].
        pose proof (source_of_tree fl (SynErr ExpectedSymbol body)) as X. cbn [of_cst node_source] in X. rewrite X, E. reflexivity. }
    destruct B as (bs & Eb & Tb). rewrite Eb.
    apply total_seq; [apply total_do|]. apply total_seq; [|apply total_seq; [|apply total_span; exact Ts]].
    + destruct h as [l|x].
      * apply Qs; [apply incl_appl, incl_refl|exists [], body; reflexivity|exact S1].
      * specialize (Q [x]). cbn [map] in Q. apply Forall_inv in Q; [exact Q|intros y [<-|[]]; apply in_or_app; left; left; reflexivity|exists [], body; reflexivity|exact S1].
    + apply total_lift. repeat apply total_seq; [apply total_do|eapply total_named; exact N0| |apply total_span; exact Tb].
      apply Qs; [apply incl_appr, incl_refl|eexists _, []; rewrite app_nil_r; reflexivity|exact S2].
  - cbn [of_cst node_source] in En. rewrite En. apply total_seq; [apply total_do|]. apply total_seq; [|apply total_lift, total_span; exact Ts]. cbn [children] in Qs. apply Qs; [apply incl_refl|exists [], []; rewrite app_nil_r; reflexivity|exact S1].
  - cbn [of_cst node_source] in En. rewrite En. destruct N0 as [s0 N0]. apply total_lift. repeat apply total_seq; [apply total_do|eapply total_named; exact N0| |apply total_span; exact Ts].
    cbn [children] in Qs. apply Qs; [apply incl_refl|exists [], []; rewrite app_nil_r; reflexivity|exact S1].
Qed.

(** ** The operators of the parser have symbols *)

Definition has_name (f : family) (op : Z) : bool := match op_to_symbol f op with Some _ => true | None => false end.
Lemma has_name_Some : forall f op, has_name f op = true -> exists s, op_to_symbol f op = Some s.
Proof. intros f op H. unfold has_name in H. destruct (op_to_symbol f op); [eauto|discriminate H]. Qed.
Definition prefix_named (k : Z) : bool :=
  match prefix_of k with
  | PP_PrefixOperator _ op => has_name (family_of KPrefix) op
  | PP_Integral op1 op2 => if has_name (family_of KPrefixBinary) op1 then has_name (family_of KPrefix) op2 else false
  | PP_Group _ op => has_name (family_of KGroup) op
  | _ => true
  end.
Definition infix_named (k : Z) : bool :=
  match infix_of k with
  | IP_PostfixOperator _ op => has_name (family_of KPostfix) op
  | IP_BinaryOperator _ op => has_name (family_of KBinary) op
  | IP_InfixOperator _ op => has_name (family_of KInfix) op
  | _ => true
  end.
Lemma prefixes_named : forall k, In k LEAF_KINDS -> prefix_named k = true.
Proof. assert (X : forallb prefix_named LEAF_KINDS = true) by (vm_compute; reflexivity). exact (proj1 (forallb_forall _ _) X). Qed.
Lemma infixes_named : forall k, In k LEAF_KINDS -> infix_named k = true.
Proof. assert (X : forallb infix_named LEAF_KINDS = true) by (vm_compute; reflexivity). exact (proj1 (forallb_forall _ _) X). Qed.

Lemma prefix_entry_named : forall k op prec, In k LEAF_KINDS -> prefix_entry (prefix_of k) op prec -> has_name (family_of KPrefix) op = true.
Proof.
  intros k op prec H E. apply prefixes_named in H. unfold prefix_named in H. unfold prefix_entry in E.
  destruct (prefix_of k); try contradiction; destruct E as [-> _]; [exact H| |vm_compute; reflexivity]. destruct (has_name (family_of KPrefixBinary) _); [exact H|discriminate H].
Qed.
Lemma binary_entry_named : forall k op prec, In k LEAF_KINDS -> binary_entry (infix_of k) op prec -> has_name (family_of KBinary) op = true.
Proof.
  intros k op prec H E. apply infixes_named in H. unfold infix_named in H. unfold binary_entry in E.
  destruct (infix_of k); try contradiction; try (destruct E as [-> _]; first [exact H|vm_compute; reflexivity]). destruct E as [[-> _]|[-> _]]; vm_compute; reflexivity.
Qed.
Lemma infix_entry_named : forall k op prec, In k LEAF_KINDS -> infix_entry (infix_of k) op prec -> has_name (family_of KInfix) op = true.
Proof.
  intros k op prec H E. apply infixes_named in H. unfold infix_named in H. unfold infix_entry in E.
  destruct (infix_of k); try contradiction; destruct E as [-> _]; first [exact H|vm_compute; reflexivity].
Qed.
Lemma opens_named : forall op t, In (t_kind t) LEAF_KINDS -> opens op t -> has_name (family_of KGroup) op = true.
Proof. intros op t H [opener E]. apply prefixes_named in H. unfold prefix_named in H. rewrite E in H. exact H. Qed.
Lemma call_named : forall op op', try_to_call_operator op = Ok op' -> has_name call_family op' = true.
Proof.
  intros op op' E. unfold try_to_call_operator in E. cbn [switch] in E.
  repeat match type of E with (if ?b then _ else _) = _ => destruct b; [injection E as <-; vm_compute; reflexivity|] end. discriminate E.
Qed.
Lemma compound_named : forall op ch, compound_ok op ch -> has_name (family_of KCompound) op = true.
Proof.
  intros op ch H. destruct H as [t u bop pbop B _|s t n bop pbop _ B _| | | |]; try (vm_compute; reflexivity);
    destruct B as [(_ & -> & ->)|[(_ & -> & ->)|(_ & -> & ->)]]; vm_compute; reflexivity.
Qed.
Lemma ternary_named : forall op k1 k2 p1 p2, ternary_entry op k1 k2 p1 p2 -> has_name (family_of KTernary) op = true.
Proof. intros op k1 k2 p1 p2 [(-> & _)|[(-> & _)|[(-> & _)|(-> & _)]]]; vm_compute; reflexivity. Qed.

Lemma leaf_of_child : forall (n : cst) t, In (Tok t) (children n) -> Forall clean_token (toks n) -> In (t_kind t) LEAF_KINDS.
Proof.
  intros n t H K. destruct (nodes_toks n (Tok t) (child_nodes _ _ H)) as (a & b & E). rewrite E in K. apply Forall_app in K as [_ K]. apply Forall_inv in K. exact (proj2 (proj1 K)).
Qed.
Lemma part_child : forall ch x l, parts ch = l -> In x l -> In x ch.
Proof. intros ch x l <- H. apply filter_In in H. tauto. Qed.
Lemma alternate_second : forall op prec l, alternate op prec l -> exists a t r, l = a :: Tok t :: r /\ infix_entry (infix_of (t_kind t)) op prec.
Proof. intros op prec l H. induction H as [a t b _ E _ _|l t b p' _ (a & t' & r & -> & E) _ _ _]; [eauto|]. eexists _, _, _. split; [reflexivity|exact E]. Qed.
Lemma joined_second : forall op l, joined op l -> exists a t r prec, l = a :: Tok t :: r /\ infix_entry (infix_of (t_kind t)) op prec.
Proof. intros op l H. destruct H; eauto 6. Qed.

Ltac child := match goal with |- In (t_kind ?t) LEAF_KINDS => eapply leaf_of_child; [|eassumption] end; cbn [children]; first [eapply part_child; [eassumption|cbn; tauto]|cbn; tauto].
Lemma ok_named : forall n, node_ok n -> Forall clean_token (toks n) -> named n.
Proof.
  intros n H K. destruct H as [t|op ch t a prec P E|op ch t a b op2 P E|op ch a t prec P E|op ch a t b prec P E|ch a t u P|op ch a t b u c p1 p2 P E|ch a t b u v P|op prec ch A _|op ch C
    |op ch (t & mid & u & -> & O & _)|op ch (t & mid & -> & O & _)|l h op op' ch _ _ _ E _|l h op op' ch _ _ _ E _|]; cbn [named]; try exact I; apply has_name_Some.
  - eapply prefix_entry_named; [|exact E]. child.
  - assert (HK : In (t_kind t) LEAF_KINDS) by child. apply prefixes_named in HK. unfold prefix_named in HK. rewrite E in HK. destruct (has_name (family_of KPrefixBinary) op); [reflexivity|discriminate HK].
  - assert (HK : In (t_kind t) LEAF_KINDS) by child. apply infixes_named in HK. unfold infix_named in HK. rewrite E in HK. exact HK.
  - eapply binary_entry_named; [|exact E]. child.
  - vm_compute. reflexivity.
  - eapply ternary_named; exact E.
  - vm_compute. reflexivity.
  - apply alternate_second in A as (a & t & r & P & E). eapply infix_entry_named; [|exact E]. child.
  - eapply compound_named; exact C.
  - eapply opens_named; [|exact O]. child.
  - change (family_of KGroupMissingCloser) with (family_of KGroup). eapply opens_named; [|exact O]. child.
  - eapply call_named; exact E.
  - eapply call_named; exact E.
Qed.
Lemma fits_named : forall n, fits n -> Forall clean_token (toks n) -> named n.
Proof.
  intros n H K. destruct H as [t|op t a prec E|op t a b op2 E|op a t prec E|op a t b prec E|a t u|op a t b u c p1 p2 E|a t b u v|op ch A|op ch C|op t mid u O _|op t mid O|h gop op t mid u E|h gop op t mid E|]; cbn [named]; try exact I; apply has_name_Some.
  - eapply prefix_entry_named; [|exact E]. child.
  - assert (HK : In (t_kind t) LEAF_KINDS) by child. apply prefixes_named in HK. unfold prefix_named in HK. rewrite E in HK. destruct (has_name (family_of KPrefixBinary) op); [reflexivity|discriminate HK].
  - assert (HK : In (t_kind t) LEAF_KINDS) by child. apply infixes_named in HK. unfold infix_named in HK. rewrite E in HK. exact HK.
  - eapply binary_entry_named; [|exact E]. child.
  - vm_compute. reflexivity.
  - eapply ternary_named; exact E.
  - vm_compute. reflexivity.
  - apply joined_second in A as (a & t & r & prec & -> & E). eapply infix_entry_named; [|exact E]. child.
  - eapply compound_named; exact C.
  - eapply opens_named; [|exact O]. child.
  - change (family_of KGroupMissingCloser) with (family_of KGroup). eapply opens_named; [|exact O]. child.
  - eapply call_named; exact E.
  - eapply call_named; exact E.
Qed.

(** ** The trees of a parse *)

Lemma starts_from_one : forall o input s0, Inv o (reader_new o input) -> R o (reader_new o input) s0 -> from_one (ploc (cur s0)).
Proof.
  intros o input s0 HI HR. refine (from_one_up _ _ _ (R_leb o _ _ HI HR)). unfold reader_new, newSourceLocation. cbn [cur ploc]. destruct (o_conv o); cbn; lia.
Qed.

Lemma clean_parse : forall o dbg b input l s', 0 < o_tab_width o -> well_formed_no_bom input -> parse_cst_raw o dbg keep b input = Ok (l, s') ->
  forall n, In n l -> shaped keep n /\ Forall clean_token (toks n) /\ exists a e, from_one a /\ spaced a (toks n) e.
Proof.
  intros o dbg b input l s' Ht W E n Hn.
  destruct (parse_facts o dbg keep b input l s' Ht keep_ok E) as (s0 & us & z' & F1 & F2 & F3 & F4 & F5 & F6 & F7 & F8 & F9 & F10 & F11 & F12 & _).
  destruct F12 as (g & Hm & F12). apply mended_keep in Hm. subst g.
  pose proof (row_trivia _ _ _ _ F12) as T. pose proof (row_kind _ _ _ _ F12) as K.
  assert (U : Forall (fun t => utf8_valid (t_text t) = true) (leaves l)).
  { apply (row_utf8 _ _ _ _ F12). destruct F5 as ((cs & M & _) & _). destruct (moves_clean _ _ _ _ _ _ M) as (W2 & _); [|exact W2]. exact W. }
  assert (SP : spaced (ploc (cur s0)) (leaves l) (ploc (cur z'))).
  { apply row_spaced. refine (row_in_a_row o (here s0) _ (here z') _ F12). exact (leb_self o s0 F4). }
  pose proof (starts_from_one o input s0 (reader_new_Inv o input Ht) F5) as ONE.
  apply in_split in Hn as (l1 & l2 & ->). change (n :: l2) with ([n] ++ l2) in *. rewrite !leaves_app in *.
  apply Forall_app in T as [_ T]. apply Forall_app in T as [T _]. apply Forall_app in K as [_ K]. apply Forall_app in K as [K _]. apply Forall_app in U as [_ U]. apply Forall_app in U as [U _].
  apply spaced_app in SP as (b1 & SP0 & SP). apply spaced_app in SP as (b2 & SP & _). unfold leaves in T, K, U, SP. cbn [flat_map] in T, K, U, SP. rewrite app_nil_r in T, K, U, SP.
  apply Forall_app in F9 as [_ F9]. inversion F9 as [|? ? Sn _]; subst. split; [exact Sn|]. split.
  - rewrite Forall_forall in *. intros t Hin. split; [split|]; auto.
  - exists b1, b2. split; [|exact SP]. exact (from_one_up _ _ ONE (spaced_le _ _ _ SP0)).
Qed.
Lemma parse_total : forall o dbg b input l s' c fl, 0 < o_tab_width o -> well_formed_no_bom input -> parse_cst_raw o dbg keep b input = Ok (l, s') ->
  total (put_nodes c (map (of_cst fl) l)).
Proof.
  intros o dbg b input l s' c fl Ht W E. unfold put_nodes. apply total_put_seq. rewrite Forall_forall. intros w Hw. apply in_map_iff in Hw as (m & <- & Hw). apply in_map_iff in Hw as (n & <- & Hn).
  destruct (clean_parse o dbg b input l s' Ht W E n Hn) as (S & K & a & e & Ha & SP). apply (total_tree c fl n a e); auto.
  - apply shaped_solid. exact S.
  - rewrite Forall_forall. intros m Hm. pose proof (shaped_nodes n S) as N. rewrite Forall_forall in N. apply ok_named; auto. eapply leaf_down; eauto.
Qed.
Lemma aggregate_total : forall o dbg b input l s' l' c fl, 0 < o_tab_width o -> well_formed_no_bom input -> parse_cst_raw o dbg keep b input = Ok (l, s') ->
  aggregate_cst_seq l = Ok l' -> total (put_nodes c (map (of_cst fl) l')).
Proof.
  intros o dbg b input l s' l' c fl Ht W E Ea. unfold put_nodes. apply total_put_seq. rewrite Forall_forall. intros w Hw. apply in_map_iff in Hw as (m & <- & Hw). apply in_map_iff in Hw as (n' & <- & Hn').
  destruct (parse_good o dbg b input l s' l' n' Ht W E Ea Hn') as (G1 & G2 & _).
  destruct (agg_seq_in _ _ _ Ea Hn') as (n & Hn & En). destruct (clean_parse o dbg b input l s' Ht W E n Hn) as (S & K & a & e & Ha & SP).
  assert (G : Forall good_leaf (toks n)) by (eapply Forall_impl; [|exact K]; intros t Hc; exact (proj1 Hc)).
  destruct (shaped_heads n S G) as [_ NC]. pose proof (aggregate_tokens n n' _ _ NC En (tokens_of_toks n) (tokens_of_toks n')) as Et.
  apply (total_tree c fl n' a e); auto.
  - apply fits_solid. exact G1.
  - rewrite Forall_forall. intros m Hm. rewrite Forall_forall in G1. apply fits_named; auto. exact (leaf_down _ _ _ G2 Hm).
  - rewrite Et. apply spaced_filter. exact SP.
Qed.
