(** Runs that agree: repeated peeks, different options, the token iterator. *)
From Coq Require Import ZArith List Bool Lia.
From Verif Require Import Base Source WLChar GenTokenKind LongNames ByteDecoder CharDecoder TokenKind Format Tokenizer
  Decode SpecText SpecReader SpecTokenizer Iter TextProofs Logic WlDecode ReaderProofs TokLogic TokenizerProofs TokenLoop TokSim.
Import ListNotations.
Local Open Scope Z_scope.

Section Agree.
Context (o1 o2 : opts) (LR : loc -> loc -> Prop).
Context (Hadv : forall c l1 l2, LR l1 l2 -> LR (adv o1 c l1) (adv o2 c l2)).
Local Notation rel := (rel o1 o2 LR).
Local Notation trel := (trel LR).
Local Notation psim := (@psim o1 o2 LR _ _).

Lemma sim_ask : forall q, plain_request q -> psim trel (ask o1 q) (ask o2 q).
Proof.
  intros [g pol| |] Hq; cbn [ask]; unfold peek_token_with, peek_token_as_tag, peek_token_as_file; apply psim_peek.
  - apply sim_nextToken; auto. destruct g; auto.
  - apply sim_nextTag; auto.
  - apply sim_nextFile; auto.
Qed.

(** asking and skipping keeps two runs together *)
Lemma ask_skip_rel : forall q s1 s2 t u s1' s2', rel s1 s2 -> plain_request q ->
  ask o1 q s1 = Ok (t, s1') -> ask o2 q s2 = Ok (u, s2') ->
  trel t u /\ rel (mkst (after t) (lg s1')) (mkst (after u) (lg s2')) /\ asked o1 q s1 t s1' /\ asked o2 q s2 u s2'.
Proof.
  intros q s1 s2 t u s1' s2' Hr Hq E1 E2. pose proof (sim_ask q Hq s1 s2 Hr I) as H. rewrite E1, E2 in H. destruct H as [Ht _].
  pose proof (ask_ok o1 q s1 (rel_Inv1 _ _ _ _ _ Hr) Hq) as A1. pose proof (ask_ok o2 q s2 (rel_Inv2 _ _ _ _ _ Hr) Hq) as A2.
  unfold wpr in *. rewrite E1 in A1. rewrite E2 in A2. destruct A1 as (_ & _ & A1). destruct A2 as (_ & _ & A2).
  split; auto. split; auto. destruct Ht as (K1 & K2 & K3 & K4 & K5). split.
  - split; cbn [cur]; unfold after; cbn [rest ploc]; [congruence|auto].
  - split; [apply A1|apply A2].
Qed.

Lemma sim_ask_all : forall qs, Forall plain_request qs -> psim (Forall2 trel) (ask_all o1 qs) (ask_all o2 qs).
Proof.
  induction qs as [|q qs IH]; intros Hq; cbn [ask_all].
  - apply psim_ret. constructor.
  - inversion Hq; subst. intros s1 s2 Hr _. unfold bind. destruct (ask o1 q s1) as [[t s1']| |] eqn:E1; auto.
    destruct (ask o2 q s2) as [[u s2']| |] eqn:E2.
    2,3: match goal with |- match ?m with _ => _ end => destruct m as [[? ?]| |]; auto end.
    destruct (ask_skip_rel _ _ _ _ _ _ _ Hr H1 E1 E2) as (Ht & Hr' & _). rewrite !skip_eq.
    specialize (IH H2 _ _ Hr' I). destruct (ask_all o1 qs _) as [[ts t1]| |]; auto. destruct (ask_all o2 qs _) as [[us t2]| |]; auto.
    destruct IH. split; auto.
Qed.

Lemma sim_tokens_loop : forall n, psim (Forall2 trel) (tokens_loop o1 n) (tokens_loop o2 n).
Proof.
  induction n as [|n IH]; cbn [tokens_loop]; [apply psim_fuel_out|].
  intros s1 s2 Hr _. rewrite !peek_token_ask. unfold bind. destruct (ask o1 top_req s1) as [[t s1']| |] eqn:E1; auto.
  destruct (ask o2 top_req s2) as [[u s2']| |] eqn:E2.
  2,3: match goal with |- match ?m with _ => _ end => destruct m as [[? ?]| |]; auto end.
  destruct (ask_skip_rel _ _ _ _ _ _ _ Hr (eq_refl : plain_request top_req) E1 E2) as (Ht & Hr' & A1 & A2).
  assert (Ek : t_kind u = t_kind t) by (symmetry; apply Ht). rewrite Ek. destruct (t_kind t =? TK_EndOfFile).
  { cbn. split; [constructor|]. destruct A1 as (C1 & _). destruct A2 as (C2 & _). unfold rel, TokSim.rel in *. rewrite C1, C2. auto. }
  rewrite !skip_eq. specialize (IH _ _ Hr' I). destruct (tokens_loop o1 n _) as [[ts t1]| |]; auto. destruct (tokens_loop o2 n _) as [[us t2]| |]; auto.
  destruct IH. split; auto.
Qed.

Lemma sim_skip_line_loop : forall n, psim eq (skip_line_loop o1 n) (skip_line_loop o2 n).
Proof.
  induction n as [|n IH]; cbn [skip_line_loop]; [apply psim_fuel_out|].
  intros s1 s2 Hr _. rewrite !peek_token_ask. unfold bind. destruct (ask o1 top_req s1) as [[t s1']| |] eqn:E1; auto.
  destruct (ask o2 top_req s2) as [[u s2']| |] eqn:E2.
  2,3: match goal with |- match ?m with _ => _ end => destruct m as [[? ?]| |]; auto end.
  destruct (ask_skip_rel _ _ _ _ _ _ _ Hr (eq_refl : plain_request top_req) E1 E2) as (Ht & Hr' & A1 & A2).
  assert (Ek : t_kind u = t_kind t) by (symmetry; apply Ht). rewrite Ek. destruct (t_kind t =? TK_EndOfFile).
  { cbn. split; auto. destruct A1 as (C1 & _). destruct A2 as (C2 & _). unfold rel, TokSim.rel in *. rewrite C1, C2. auto. }
  destruct (t_kind t =? TK_ToplevelNewline).
  { rewrite !skip_eq. auto. }
  rewrite !skip_eq. apply (IH _ _ Hr' I).
Qed.

Lemma sim_handle_first_line : forall b, psim eq (handle_first_line o1 b) (handle_first_line o2 b).
Proof.
  intros b. assert (K : psim eq
     (t <- peek_token o1 false ;;
      if negb (t_kind t =? TK_Hash) then ret tt
      else skip t ;; t2 <- peek_token o1 false ;;
        if negb (t_kind t2 =? TK_Bang) then ret tt else skip t2 ;; with_fuel (skip_line_loop o1))
     (t <- peek_token o2 false ;;
      if negb (t_kind t =? TK_Hash) then ret tt
      else skip t ;; t2 <- peek_token o2 false ;;
        if negb (t_kind t2 =? TK_Bang) then ret tt else skip t2 ;; with_fuel (skip_line_loop o2))).
  { intros s1 s2 Hr _. rewrite !peek_token_ask. unfold bind. destruct (ask o1 top_req s1) as [[t s1']| |] eqn:E1; auto.
    destruct (ask o2 top_req s2) as [[u s2']| |] eqn:E2.
    2,3: match goal with |- match ?m with _ => _ end => destruct m as [[? ?]| |]; auto end.
    destruct (ask_skip_rel _ _ _ _ _ _ _ Hr (eq_refl : plain_request top_req) E1 E2) as (Ht & Hr' & A1 & A2).
    assert (Ek : t_kind u = t_kind t) by (symmetry; apply Ht). rewrite Ek. destruct (negb (t_kind t =? TK_Hash)).
    { cbn. split; auto. destruct A1 as (C1 & _). destruct A2 as (C2 & _). unfold rel, TokSim.rel in *. rewrite C1, C2. auto. }
    rewrite !skip_eq. clear E1 E2. destruct (ask o1 top_req _) as [[t2 s3]| |] eqn:E1; auto.
    destruct (ask o2 top_req _) as [[u2 s4]| |] eqn:E2.
    2,3: match goal with |- match ?m with _ => _ end => destruct m as [[? ?]| |]; auto end.
    destruct (ask_skip_rel _ _ _ _ _ _ _ Hr' (eq_refl : plain_request top_req) E1 E2) as (Ht2 & Hr2 & B1 & B2).
    assert (Ek2 : t_kind u2 = t_kind t2) by (symmetry; apply Ht2). rewrite Ek2. destruct (negb (t_kind t2 =? TK_Bang)).
    { cbn. split; auto. destruct B1 as (C1 & _). destruct B2 as (C2 & _). unfold rel, TokSim.rel in *. rewrite C1, C2. auto. }
    rewrite !skip_eq. refine (psim_fuel o1 o2 LR _ _ _ _ _ _ sim_skip_line_loop _ _ Hr2 I). }
  destruct b; cbn [handle_first_line]; [apply psim_ret; auto|apply K|apply K].
Qed.

Lemma sim_run_tokens : forall b, psim (Forall2 trel) (run_tokens o1 b) (run_tokens o2 b).
Proof.
  intros b. unfold run_tokens. eapply psim_bind; [apply sim_handle_first_line|]. intros _ _ _. apply psim_fuel. apply sim_tokens_loop.
Qed.
End Agree.

(** ** Taking tokens instead of peeking and skipping *)
Lemma next_token_asked : forall o s t s', Inv o s -> next_token o s = Ok (t, s') ->
  asked o top_req s t (mkst (cur s) (lg s')) /\ rest (cur s') = rest (after t) /\ ploc (cur s') = ploc (after t) /\ Inv o s' /\ R o s s'.
Proof.
  intros o s t s' HI E. pose proof (nextToken_ok o s HI TOPLEVEL eq_refl) as H. unfold next_token in E. unfold wpr in H. rewrite E in H.
  destruct H as (I' & R' & H). assert (A : asked o top_req s t (mkst (cur s) (lg s'))).
  { destruct H as [H|H]; [apply (asked_tok _ _ _ _ s'); auto|apply (asked_eof _ _ _ _ _ s'); auto]. }
  split; auto. destruct A as (_ & _ & _ & A4 & A5 & A6 & _).
  destruct H as [((T1 & T2 & T3 & T4 & T5) & _)|(T1 & T2 & T3)].
  - split; [|split; auto; rewrite T3 in A6; congruence]. destruct (R_suffix _ _ _ R') as [p Ep].
    rewrite T2, Ep, buf_between_app in A5. apply app_inv_head in A5. auto.
  - split; [|split; auto; rewrite T1 in A6; cbn [t_src] in A6; congruence]. rewrite T2. assert (Et : t_text t = rest (cur s)) by (rewrite T1; reflexivity). rewrite Et in A5.
    destruct (rest (after t)) as [|x y] eqn:Er; [auto|exfalso]. apply (f_equal (@length Z)) in A5. rewrite app_length in A5. cbn in A5. lia.
Qed.

Lemma reached_Inv : forall o input s, 0 < o_tab_width o -> reached o input s -> Inv o s /\ R o (reader_new o input) s.
Proof.
  intros o input s Ht H. induction H as [|q s t s' Hr [IH1 IH2] Hq E|q s t s' s'' Hr [IH1 IH2] Hq E E2|s t s' Hr [IH1 IH2] E].
  - split; [apply reader_new_Inv; auto|apply R_refl].
  - pose proof (ask_ok o q s IH1 Hq) as H. unfold wpr in H. rewrite E in H. destruct H as (H1 & H2 & _). split; auto. eapply R_trans; eauto.
  - pose proof (ask_ok o q s IH1 Hq) as H. unfold wpr in H. rewrite E in H. destruct H as (H1 & H2 & H3). rewrite skip_eq in E2. injection E2 as <-.
    destruct H3 as (_ & H3 & H4 & _). split; auto. eapply R_trans; eauto.
  - destruct (next_token_asked o s t s' IH1 E) as (_ & _ & _ & I' & R'). split; auto. eapply R_trans; eauto.
Qed.

Lemma adv_same : forall o1 o2, o_tab_width o1 = o_tab_width o2 -> forall c l1 l2, l1 = l2 -> adv o1 c l1 = adv o2 c l2.
Proof. intros o1 o2 E c l1 l2 ->. unfold adv. rewrite E. reflexivity. Qed.

Lemma trel_eq : forall t u, trel eq t u -> t = u.
Proof. intros [] [] (H1 & H2 & H3 & H4 & H5). cbn in *. destruct t_src, t_src0. cbn in *. congruence. Qed.

Lemma rel_self : forall o s s', Inv o s -> Inv o s' -> rest (cur s) = rest (cur s') -> ploc (cur s) = ploc (cur s') -> rel o o eq s s'.
Proof. intros o s s' H H' E1 E2. split; [split; auto|split; auto]. Qed.

Lemma SE_reached : forall o input s, 0 < o_tab_width o -> reached o input s -> ~ has_surrogate_escape input -> ~ has_surrogate_escape (rest (cur s)).
Proof.
  intros o input s Ht Hr Hn H. destruct (reached_Inv _ _ _ Ht Hr) as [_ R0]. apply Hn. apply (R_surr o (reader_new o input) s) in H; auto.
Qed.

Lemma ask_total : forall o q s, Inv o s -> plain_request q -> ~ SE s -> exists t s', ask o q s = Ok (t, s') /\ Inv o s' /\ asked o q s t s'.
Proof.
  intros o q s HI Hq Hn. pose proof (ask_ok o q s HI Hq) as H. unfold wpr in H.
  destruct (ask o q s) as [[t s']| |]; [|contradiction|contradiction]. destruct H as (I' & R' & A). eauto.
Qed.

(** two states at the same place give the same token *)
Lemma ask_same : forall o q s s' t u s1 s1', Inv o s -> Inv o s' -> rest (cur s) = rest (cur s') -> ploc (cur s) = ploc (cur s') -> plain_request q ->
  ask o q s = Ok (t, s1) -> ask o q s' = Ok (u, s1') -> t = u.
Proof.
  intros o q s s' t u s1 s1' HI HI' E1 E2 Hq A1 A2. apply trel_eq.
  pose proof (sim_ask o o eq (adv_same o o eq_refl) q Hq s s' (rel_self o s s' HI HI' E1 E2) I) as H. rewrite A1, A2 in H. apply H.
Qed.

Lemma next_same : forall o s s' t u s1 s1', Inv o s -> Inv o s' -> rest (cur s) = rest (cur s') -> ploc (cur s) = ploc (cur s') ->
  ask o top_req s = Ok (t, s1) -> next_token o s' = Ok (u, s1') -> t = u.
Proof.
  intros o s s' t u s1 s1' HI HI' E1 E2 A1 A2. apply trel_eq.
  cbn [ask top_req] in A1. unfold top_req, ask, peek_token_with in A1. unfold next_token in A2. unfold peek, bind, mark, seek, ret in A1.
  pose proof (sim_nextToken o o eq (adv_same o o eq_refl) TOPLEVEL eq_refl s s' (rel_self o s s' HI HI' E1 E2) I) as H.
  cbv iota in A1. destruct (nextToken o TOPLEVEL s) as [[t' x]| |]; try discriminate. injection A1 as -> _. rewrite A2 in H. apply H.
Qed.

(** ** The token iterator *)
Lemma next_loop_same : forall o n s s', Inv o s -> Inv o s' -> rest (cur s) = rest (cur s') -> ploc (cur s) = ploc (cur s') -> ~ SE s ->
  forall ts t1, tokens_loop o n s = Ok (ts, t1) -> exists t2, next_tokens_loop o n s' = Ok (ts, t2).
Proof.
  intros o n. induction n as [|n IH]; intros s s' HI HI' E1 E2 Hn ts t1 H; [discriminate|].
  cbn [tokens_loop next_tokens_loop] in *. rewrite peek_token_ask in H. unfold bind in *.
  destruct (ask_total o top_req s HI eq_refl Hn) as (t & s1 & A1 & I1 & K1). rewrite A1 in H.
  pose proof (nextToken_ok o s' HI' TOPLEVEL eq_refl) as Hw. unfold wpr in Hw. fold (next_token o) in Hw.
  destruct (next_token o s') as [[u s2]| |] eqn:A2; [|exfalso; apply Hn; rewrite E1; auto|contradiction].
  assert (t = u) by exact (next_same o s s' t u _ _ HI HI' E1 E2 A1 A2). subst u. destruct (t_kind t =? TK_EndOfFile); [injection H as <- <-; exists s2; reflexivity|].
  rewrite skip_eq in H. destruct (next_token_asked o s' t s2 HI' A2) as (_ & N1 & N2 & N3 & _).
  destruct (tokens_loop o n _) as [[ts' t1']| |] eqn:El; try discriminate. injection H as <- <-.
  destruct K1 as (K1 & K2 & K3 & K4 & K5 & _).
  edestruct (IH _ s2 K2 N3) as [t2 Hx]; [| | |exact El|].
  - cbn [cur]. symmetry. exact N1.
  - cbn [cur]. symmetry. exact N2.
  - cbn [cur]. intros Hs. apply Hn. rewrite K5. apply surr_suffix; auto.
  - rewrite Hx. exists t2; reflexivity.
Qed.
