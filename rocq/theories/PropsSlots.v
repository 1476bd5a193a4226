(** C73: what is written at once behind a slot, a blank or a name belongs to it. *)
From Coq Require Import String.
From Coq Require Import ZArith List Bool Lia.
From Verif Require Import Base Source WLChar LongNames SpecText GenTokenKind GenOps TokenKind Tokenizer SpecTokenizer SpecReader ByteDecoder CharDecoder Iter Cst SpecCst CstProofs Parser SpecParser SpecParse
  ParserLogic ParserRules ParserProofs ParserResults ParserTheorems ErrorReparse SpecRepair RepairProofs SpecLex LexResults PropsReader PropsTokenizer PropsParser ParserSlots SpecSlots.
Import ListNotations.
Local Open Scope string_scope.
Local Open Scope list_scope.
Local Open Scope Z_scope.

(** Take any token [t] of the trees of any text and the text right behind it.  If that text begins
    with a token that may belong to [t], the trees hold both as one operand; but a name that is
    itself the head of a blank takes no second blank. *)
Theorem C73_attached : forall o dbg b input l s', 0 < o_tab_width o -> parse_cst_raw o dbg keep b input = Ok (l, s') ->
  exists first, (b = NotScript -> first = []) /\
  forall ts1 t ts2 w k e op, all_tokens l (ts1 ++ t :: ts2) -> input = first ++ flat_map t_text ts1 ++ t_text t ++ w ++ e ->
    continues (t_kind t) w k e -> In (t_kind t, k, op) joined ->
    (exists u, t_kind u = k /\ t_text u = w /\ attached l op t u) \/ (t_kind t = TK_Symbol /\ heads l t).
Proof. exact slots_attached. Qed.
Print Assumptions C73_attached.

(** The same of what the public function gives, when all brackets are closed. *)
Theorem C73_public : forall o dbg b input l s', 0 < o_tab_width o -> complete l -> parse_cst_seq o dbg b input = Ok (l, s') ->
  exists first, (b = NotScript -> first = []) /\
  forall ts1 t ts2 w k e op, all_tokens l (ts1 ++ t :: ts2) -> input = first ++ flat_map t_text ts1 ++ t_text t ++ w ++ e ->
    continues (t_kind t) w k e -> In (t_kind t, k, op) joined ->
    (exists u, t_kind u = k /\ t_text u = w /\ attached l op t u) \/ (t_kind t = TK_Symbol /\ heads l t).
Proof. intros o dbg b input l s' Ht C E. apply (public_complete _ _ _ _ _ _ Ht C) in E. eapply slots_attached; eauto. Qed.
Print Assumptions C73_public.

(** Behind [##] in [##2^^101] only [2] counts: the slot sequence 2, followed by an error, and no number in base 2. *)
Definition trees (s : string) : list cst := match parsed s with Ok (l, _) => l | _ => [] end.
Lemma tokens_exist : forall l, all_tokens l (leaves l).
Proof.
  intros l. exists (map toks l). split; [|unfold leaves; rewrite flat_map_concat_map; reflexivity]. induction l as [|n l IH]; cbn [map]; constructor; auto. apply tokens_of_toks.
Qed.
Example C73_hypotheses : exists t ts, all_tokens (trees "##2^^101") (t :: ts) /\ text "##2^^101" = t_text t ++ text "2" ++ text "^^101" /\
  continues (t_kind t) (text "2") TK_Integer (text "^^101") /\ In (t_kind t, TK_Integer, COP_SlotSequence) joined.
Proof.
  pose proof (tokens_exist (trees "##2^^101")) as H.
  assert (K : match leaves (trees "##2^^101") with t :: _ => t_kind t = TK_HashHash /\ t_text t = text "##" | [] => False end) by (vm_compute; auto).
  revert H K. generalize (trees "##2^^101"). intros l. destruct (leaves l) as [|t ts]; [contradiction|]. intros H K. exists t, ts.
  destruct K as [K1 K2]. rewrite K1, K2. split; [exact H|]. split; [reflexivity|]. split.
  - apply cont_index; [split; [discriminate|]; constructor; [unfold digit_byte; cbn; lia|constructor]|]. intros (c & r & Ec & Hc). assert (c = 94) by (assert (List.hd 0 (text "^^101") = c) by (rewrite Ec; reflexivity); subst c; reflexivity). unfold digit_byte in Hc. lia.
  - cbn [joined In]. tauto.
Qed.
(** How some texts are read.  In [_y_] the name is the head of the first blank;
    a space keeps things apart, and [%%] takes no number. *)
Example C73_cases : map (fun s => rendered (parsed s)) ["##2^^101"; "#1.5"; "#a_"; "%%3"; "%3"; "x__h"; "_y_"; "x _"; "# 1"] =
  map (fun s => Some [text s]) ["((##2)^(^101))"; "((#1).5)"; "((#a)_)"; "(%%3)"; "(%3)"; "(x(__h))"; "((_y)_)"; "(x _)"; "(# 1)"].
Proof. vm_compute. reflexivity. Qed.
