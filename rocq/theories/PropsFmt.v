(** C72: trees printed as expressions. *)
From Coq Require Import String.
From Coq Require Import ZArith List Bool Lia.
From Verif Require Import Base Source WLChar LongNames SpecText GenTokenKind GenOps TokenKind Tokenizer SpecTokenizer SpecReader ByteDecoder CharDecoder Iter Cst SpecCst CstProofs Parser SpecParser SpecParse
  ParserLogic ParserRules ParserProofs ParserResults ParserTheorems PropsReader PropsParser AbstractShape FmtExpr FmtProofs FmtTotal SpecFmt.
Import ListNotations.
Local Open Scope string_scope.
Local Open Scope list_scope.
Local Open Scope Z_scope.

Lemma tokens_leaves : forall l ts, all_tokens l ts -> ts = leaves l.
Proof.
  intros l ts (ls & F & ->). unfold leaves. induction F as [|n t l ls H F IH]; [reflexivity|]. cbn [concat flat_map]. rewrite IH. f_equal. apply tokens_of_det. exact H.
Qed.
Lemma leaves_tokens : forall l, all_tokens l (leaves l).
Proof.
  intros l. exists (map toks l). split; [|unfold leaves; rewrite flat_map_concat_map; reflexivity]. induction l as [|n l IH]; cbn [map]; constructor; auto. apply tokens_of_toks.
Qed.

(** The trees of every text are printed when positions are lines and columns ... *)
Theorem C72_prints : forall o dbg b input l s', 0 < o_tab_width o -> o_conv o = ConvLineColumn -> well_formed_no_bom input ->
  parse_cst_raw o dbg keep b input = Ok (l, s') -> exists x, fmt_nodes l = Ok x.
Proof. exact parse_prints. Qed.
Print Assumptions C72_prints.

(** ... and printing asks for that: every token is UTF-8 and placed by lines and columns. *)
Theorem C72_needs : forall l x ts t, fmt_nodes l = Ok x -> all_tokens l ts -> In t ts ->
  utf8_valid (t_text t) = true /\ exists a b c d, t_src t = mkspan (LineCol a b) (LineCol c d).
Proof.
  intros l x ts t E A H. rewrite (tokens_leaves _ _ A) in H. pose proof (nodes_printable l x E) as P. rewrite Forall_forall in P. destruct (P t H) as (U & L & L'). split; [exact U|].
  destruct (t_src t) as [[a b|a] [c d|c]]; cbn in L, L'; try contradiction. eauto.
Qed.
Print Assumptions C72_needs.
Theorem C72_character_positions : forall o dbg b input l s' x, 0 < o_tab_width o -> o_conv o = ConvCharacterIndex ->
  parse_cst_raw o dbg keep b input = Ok (l, s') -> fmt_nodes l = Ok x -> leaves l = [].
Proof.
  intros o dbg b input l s' x Ht C E P. pose proof (parse_roomy _ _ _ _ _ _ Ht E) as F. pose proof (nodes_printable l x P) as Q. destruct (leaves l) as [|t r]; [reflexivity|exfalso].
  inversion F as [|? ? (p & q & (K & _) & _ & Es & _) _]; subst. inversion Q as [|? ? (_ & L & _) _]; subst. rewrite Es in L. cbn [sp_start] in L. destruct (snd p); [|exact L]. destruct K as [K _]. congruence.
Qed.
Print Assumptions C72_character_positions.

(** What is printed tells trees apart, as long as no token holds a double quote. *)
Theorem C72_tells_trees_apart : forall l l' ts ts' x, fmt_nodes l = Ok x -> fmt_nodes l' = Ok x -> all_tokens l ts -> all_tokens l' ts' ->
  (forall t, In t (ts ++ ts') -> unquoted t /\ counted_token t) -> map shown l = map shown l'.
Proof.
  intros l l' ts ts' x E E' A A' H. rewrite (tokens_leaves _ _ A), (tokens_leaves _ _ A') in H.
  apply (nodes_unique l l' x E E'); apply Forall_forall; intros n Hn; apply Forall_forall; intros t Hin; apply H, in_or_app; [left|right]; unfold leaves; apply in_flat_map; eauto.
Qed.
Print Assumptions C72_tells_trees_apart.
(** Quotes are not escaped: with them, trees may look the same. *)
Definition sym (s : string) (c c' : Z) : cst := Tok (mktok TK_Symbol [] (bytes_of_string s) (mkspan (LineCol 1 c) (LineCol 1 c'))).
Theorem C72_quotes_refuted : exists l l' x, fmt_nodes l = Ok x /\ fmt_nodes l' = Ok x /\ length l <> length l' /\
  (forall n t, In n (l ++ l') -> In t (toks n) -> counted_token t).
Proof.
  exists [sym "a" 1 2; sym "b" 2 3], [sym "a"", {{1, 1}, {1, 2}}], CodeParser`LeafNode[System`Symbol, ""b" 2 3]. eexists. split; [vm_compute; reflexivity|]. split; [vm_compute; reflexivity|].
  split; [discriminate|]. intros n t Hn Hin. cbn [app In] in Hn. destruct Hn as [ <- | [ <- | [ <- | [] ] ] ]; cbn [toks sym In] in Hin; destruct Hin as [ <- | [] ]; unfold counted_token; cbn; lia.
Qed.
Print Assumptions C72_quotes_refuted.

(** Texts without double quotes that print the same are the same, but for a line continuation at the end. *)
Theorem C72_same_text : forall o o' dbg dbg' input input' l l' s s' x, 0 < o_tab_width o -> 0 < o_tab_width o' ->
  ~ In 34 input -> ~ In 34 input' ->
  parse_cst_raw o dbg keep NotScript input = Ok (l, s) -> parse_cst_raw o' dbg' keep NotScript input' = Ok (l', s') ->
  fmt_nodes l = Ok x -> fmt_nodes l' = Ok x ->
  exists text tail tail', input = text ++ tail /\ input' = text ++ tail' /\ starts_continuation tail /\ starts_continuation tail'.
Proof.
  intros o o' dbg dbg' input input' l l' s s' x Ht Ht' Q Q' E E' P P'.
  destruct (C29_lossless _ _ _ _ _ _ _ Ht E (leaves_tokens l)) as (s0 & sc & tail & e & _ & N & I1 & I2 & I3 & _).
  destruct (C29_lossless _ _ _ _ _ _ _ Ht' E' (leaves_tokens l')) as (s0' & sc' & tail' & e' & _ & N' & I1' & I2' & I3' & _).
  rewrite (N eq_refl) in I1. rewrite (N' eq_refl) in I1'. cbn [app] in I1, I1'. rewrite I2 in I1. rewrite I2' in I1'.
  assert (U : forall input l tail, ~ In 34 input -> input = concat (map t_text (leaves l)) ++ tail -> forall t, In t (leaves l) -> unquoted t).
  { intros i k tl Hi -> t Hin X. apply Hi, in_or_app. left. apply in_concat. exists (t_text t). split; [apply in_map; exact Hin|exact X]. }
  assert (S : map shown l = map shown l').
  { apply (C72_tells_trees_apart l l' _ _ x P P' (leaves_tokens l) (leaves_tokens l')). intros t Hin. apply in_app_or in Hin as [Hin|Hin].
    - split; [exact (U _ _ _ Q I1 t Hin)|]. unfold leaves in Hin. apply in_flat_map in Hin as (n & Hn & Hin). pose proof (parse_counted _ _ _ _ _ _ n Ht E Hn) as F. rewrite Forall_forall in F. auto.
    - split; [exact (U _ _ _ Q' I1' t Hin)|]. unfold leaves in Hin. apply in_flat_map in Hin as (n & Hn & Hin). pose proof (parse_counted _ _ _ _ _ _ n Ht' E' Hn) as F. rewrite Forall_forall in F. auto. }
  exists (concat (map t_text (leaves l))), tail, tail'. rewrite (texts_same _ _ S) at 2. auto.
Qed.
Print Assumptions C72_same_text.

(** *** Cases *)
Definition printed (s : string) : res (list Z) :=
  match parse_cst_raw default_opts false keep NotScript (bytes_of_string s) with Ok (l, _) => fmt_nodes l | _ => Panic end.
Example C72_case : printed "f[1" = Ok (bytes_of_string ("System`List[CodeParser`CallNode[System`List[CodeParser`LeafNode[System`Symbol, ""f"", {{1, 1}, {1, 2}}], ], " ++
  "CodeParser`GroupMissingCloserNode[CodeParser`GroupSquare, System`List[CodeParser`LeafNode[Token`OpenSquare, ""["", {{1, 2}, {1, 3}}], CodeParser`LeafNode[System`Integer, ""1"", {{1, 3}, {1, 4}}], ], {{1, 2}, {1, 4}}], {{1, 1}, {1, 4}}], ]")).
Proof. vm_compute. reflexivity. Qed.
Example C72_distinct_case : exists x y, printed "a +b" = Ok x /\ printed "a+ b" = Ok y /\ x <> y.
Proof. eexists _, _. split; [vm_compute; reflexivity|]. split; [vm_compute; reflexivity|]. discriminate. Qed.
Example C72_newline_case : exists x y, printed ("a" ++ String (Ascii.ascii_of_nat 10) "b") = Ok x /\ printed ("{a" ++ String (Ascii.ascii_of_nat 10) "}") = Ok y.
Proof. eexists _, _. split; vm_compute; reflexivity. Qed.
