(** Operators that are not what they seem to begin. *)
From Coq Require Import String ZArith List Bool Lia.
From Verif Require Import Base Source WLChar GenTokenKind TokenKind LongNames ByteDecoder CharDecoder Tokenizer SpecText SpecReader SpecTokenizer
  Decode Iter TextProofs Logic WlDecode TokLogic TokSpecs ReparseProofs Link Suggestions SuggestionsEscapes Spelling Spacing SpecSpacing SpellingReader LexResults SpacingProofs.
Import ListNotations.
Local Open Scope string_scope.
Local Open Scope list_scope.
Local Open Scope Z_scope.

Section Split.
Context (o : opts).
Ltac plainly := unfold plain_char; lia.

Lemma split_read : forall pol s t s' a b k d e, In (a, b, k) SPLITS -> plain_char d -> rules_out a d -> rest (cur s) = a :: b :: d :: e -> nextToken o pol s = Ok (t, s') ->
  t_kind t = k /\ t_text t = [a] /\ recorded_ (if o_check_issues o then Some (split_issue (sp_end (t_src t))) else None) (lg s) (lg s').
Proof.
  intros pol s t s' a b k d e Hin Hd Ho R H. unfold nextToken in H. binv H p s0 E0. injection E0 as <- <-.
  assert (done : forall q, bind (backupAndWarn o (imark_of (cur (step s (b :: d :: e))))) (fun _ => mk_token q (cur s)) (step (step s (b :: d :: e)) (d :: e)) = Ok (t, s') ->
    t_kind t = q /\ t_text t = [a] /\ recorded_ (if o_check_issues o then Some (split_issue (sp_end (t_src t))) else None) (lg s) (lg s')).
  { intros q X. binv X u s1 E1. unfold backupAndWarn in E1. binv E1 v s2 E2. assert (Es : s1 = mkst (cur (step s (b :: d :: e))) (lg s2)) by (injection E1 as _ <-; reflexivity). subst s1.
    apply mk_token_inv in X as (-> & X1 & X2 & X3). cbn [cur step rest] in X2. rewrite R in X2. change (a :: b :: d :: e) with ([a] ++ b :: d :: e) in X2. rewrite between_app in X2. split; [exact X1|]. split; [exact X2|]. rewrite X3. cbn [sp_end lg].
    destruct (o_check_issues o); cbn [when_] in E2; [|injection E2 as _ <-; reflexivity]. apply report_kept in E2. subst s2. cbn [recorded_ lg]. eexists. split; [|reflexivity]. repeat split. }
  assert (P : plain_char a /\ plain_char b) by (destruct Hin as [E|[E|[E|[E|[]]]]]; injection E as <- <- <-; split; plainly). destruct P as [Pa Pb].
  unfold bind in H at 1. rewrite (nextWL_plain _ _ _ _ _ _ R Pa) in H.
  assert (C1 : currentWL o (cur s) pol (step s (b :: d :: e)) = Ok (wl b, step s (b :: d :: e))) by (apply currentWL_plain with (r := d :: e); auto).
  assert (N1 : nextWL o (cur s) pol (step s (b :: d :: e)) = Ok (wl b, step (step s (b :: d :: e)) (d :: e))) by (apply nextWL_plain; auto).
  assert (C2 : currentWL o (cur s) pol (step (step s (b :: d :: e)) (d :: e)) = Ok (wl d, step (step s (b :: d :: e)) (d :: e))) by (apply currentWL_plain with (r := e); auto).
  destruct Hin as [E|[E|[E|[E|[]]]]]; injection E as <- <- <-.
  - replace (dispatch o (cur s) (wl 61) pol) with (handleEqual o (cur s) (wl 61) pol) in H by (unfold dispatch, nextToken_uncommon; cbv zeta; symmetry; repeat decide_if; reflexivity).
    apply done. unfold handleEqual in H. binv H u s1 E1. injection E1 as _ <-. binv H c1 s2 E2. rewrite C1 in E2. injection E2 as <- <-. cbn [wl wc Z.eqb Pos.eqb] in H. binv H m s3 E3. injection E3 as <- <-. binv H c2 s4 E4. rewrite N1 in E4. injection E4 as _ <-.
    binv H c3 s5 E5. rewrite C2 in E5. injection E5 as <- <-. cbn [wl wc] in H. destruct (Z.eqb_spec d 61); [exfalso; unfold rules_out in Ho; lia|exact H].
  - replace (dispatch o (cur s) (wl 60) pol) with (handleLess o (cur s) (wl 60) pol) in H by (unfold dispatch, nextToken_uncommon; cbv zeta; symmetry; repeat decide_if; reflexivity).
    apply done. unfold handleLess in H. binv H u s1 E1. injection E1 as _ <-. binv H c1 s2 E2. rewrite C1 in E2. injection E2 as <- <-. cbn [wl wc Z.eqb Pos.eqb] in H. binv H m s3 E3. injection E3 as <- <-. binv H c2 s4 E4. rewrite N1 in E4. injection E4 as _ <-.
    binv H c3 s5 E5. rewrite C2 in E5. injection E5 as <- <-. cbn [wl wc] in H. destruct (Z.eqb_spec d 62); [exfalso; unfold rules_out in Ho; lia|exact H].
  - replace (dispatch o (cur s) (wl 124) pol) with (handleBar o (cur s) (wl 124) pol) in H by (unfold dispatch, nextToken_uncommon; cbv zeta; symmetry; repeat decide_if; reflexivity).
    apply done. unfold handleBar in H. binv H u s1 E1. injection E1 as _ <-. binv H c1 s2 E2. rewrite C1 in E2. injection E2 as <- <-. cbn [wl wc Z.eqb Pos.eqb] in H. binv H m s3 E3. injection E3 as <- <-. binv H c2 s4 E4. rewrite N1 in E4. injection E4 as _ <-.
    binv H c3 s5 E5. rewrite C2 in E5. injection E5 as <- <-. cbn [wl wc] in H. destruct (Z.eqb_spec d 62); [exfalso; unfold rules_out in Ho; lia|exact H].
  - replace (dispatch o (cur s) (wl 47) pol) with (handleSlash o (cur s) (wl 47) pol) in H by (unfold dispatch, nextToken_uncommon; cbv zeta; symmetry; repeat decide_if; reflexivity).
    apply done. unfold handleSlash in H. binv H u s1 E1. injection E1 as _ <-. binv H c1 s2 E2. rewrite C1 in E2. injection E2 as <- <-. cbn [wl wc Z.eqb Pos.eqb] in H. binv H m s3 E3. injection E3 as <- <-. binv H c2 s4 E4. rewrite N1 in E4. injection E4 as _ <-.
    binv H c3 s5 E5. rewrite C2 in E5. injection E5 as <- <-. cbn [wl wc] in H. assert (D : isDigit d = true) by (apply between_iff; unfold rules_out in Ho; lia). rewrite D in H. exact H.
Qed.

Lemma spaced_read : forall pol s t s' a b k e, In (a, b, k) SPLITS -> rest (cur s) = a :: 32 :: e -> nextToken o pol s = Ok (t, s') -> t_kind t = k /\ t_text t = [a] /\ lg s' = lg s.
Proof.
  intros pol s t s' a b k e Hin R H. unfold nextToken in H. binv H p s0 E0. injection E0 as <- <-.
  assert (done : forall q, mk_token q (cur s) (step s (32 :: e)) = Ok (t, s') -> t_kind t = q /\ t_text t = [a] /\ lg s' = lg s).
  { intros q X. apply mk_token_inv in X as (-> & X1 & X2 & _). cbn [cur step rest] in X2. rewrite R in X2. change (a :: 32 :: e) with ([a] ++ 32 :: e) in X2. rewrite between_app in X2. auto. }
  assert (Pa : plain_char a) by (destruct Hin as [E|[E|[E|[E|[]]]]]; injection E as <- <- <-; plainly).
  unfold bind in H at 1. rewrite (nextWL_plain _ _ _ _ _ _ R Pa) in H.
  assert (C1 : currentWL o (cur s) pol (step s (32 :: e)) = Ok (wl 32, step s (32 :: e))) by (apply currentWL_plain with (r := e); [reflexivity|exact plain_32]).
  destruct Hin as [E|[E|[E|[E|[]]]]]; injection E as <- <- <-.
  - replace (dispatch o (cur s) (wl 61) pol) with (handleEqual o (cur s) (wl 61) pol) in H by (unfold dispatch, nextToken_uncommon; cbv zeta; symmetry; repeat decide_if; reflexivity).
    apply done. unfold handleEqual in H. binv H u s1 E1. injection E1 as _ <-. binv H c1 s2 E2. rewrite C1 in E2. injection E2 as <- <-. exact H.
  - replace (dispatch o (cur s) (wl 60) pol) with (handleLess o (cur s) (wl 60) pol) in H by (unfold dispatch, nextToken_uncommon; cbv zeta; symmetry; repeat decide_if; reflexivity).
    apply done. unfold handleLess in H. binv H u s1 E1. injection E1 as _ <-. binv H c1 s2 E2. rewrite C1 in E2. injection E2 as <- <-. exact H.
  - replace (dispatch o (cur s) (wl 124) pol) with (handleBar o (cur s) (wl 124) pol) in H by (unfold dispatch, nextToken_uncommon; cbv zeta; symmetry; repeat decide_if; reflexivity).
    apply done. unfold handleBar in H. binv H u s1 E1. injection E1 as _ <-. binv H c1 s2 E2. rewrite C1 in E2. injection E2 as <- <-. exact H.
  - replace (dispatch o (cur s) (wl 47) pol) with (handleSlash o (cur s) (wl 47) pol) in H by (unfold dispatch, nextToken_uncommon; cbv zeta; symmetry; repeat decide_if; reflexivity).
    apply done. unfold handleSlash in H. binv H u s1 E1. injection E1 as _ <-. binv H c1 s2 E2. rewrite C1 in E2. injection E2 as <- <-. exact H.
Qed.
End Split.
