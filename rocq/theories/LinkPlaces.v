(** The positions of the tokens of a parse are from 1 on, and bounded by the length of the text. *)
From Coq Require Import String.
From Coq Require Import ZArith List Bool Lia.
From Verif Require Import Base Source WLChar LongNames ByteDecoder CharDecoder Decode SpecText Iter
  TextProofs Logic LongNamesProofs WlDecode SpecReader ReaderProofs GenTokenKind TokenKind Format FormatProofs Tokenizer TokLogic
  TokenizerProofs SpecTokenizer TokenLoop TokSim TokAgree TokResults GenPrec GenOps GenParselets Parselets Utils Cst SpecCst CstProofs Parser SpecParser SpecParse
  ParserLogic ParserRules ParserProofs ParserResults ParserTheorems ReparseProofs Ast Abstract SpecAbstract AbstractProofs AbstractShape BoxPosition Link LinkTotal SpecLink LinkRead.
Import ListNotations.
Local Open Scope Z_scope.

Section Places.
Variable o : opts.
Variable N : Z.
Hypothesis Ht : 0 < o_tab_width o.

(** what is left to read keeps a position below the bound *)
Definition room (p : list Z * loc) : Prop :=
  locok o (snd p) /\ Z.of_nat (length (fst p)) <= N /\
  match snd p with
  | LineCol a b => a + Z.of_nat (length (fst p)) <= 1 + N /\ b + o_tab_width o * Z.of_nat (length (fst p)) <= 1 + o_tab_width o * N
  | CharIdx i => i + 2 * Z.of_nat (length (fst p)) <= 1 + 2 * N
  end.
Lemma room_step : forall bs l, bs <> [] -> room (bs, l) -> room (drest (decode bs), adv o (dchar (decode bs)) l).
Proof.
  intros bs l NE (L & B & P). pose proof (decode_shorter bs NE) as S. unfold room. cbn [fst snd] in *.
  set (n := Z.of_nat (length bs)) in *. set (m := Z.of_nat (length (drest (decode bs)))) in *. assert (m + 1 <= n) by lia. assert (0 <= m) by lia. clearbody n m.
  assert (X : o_tab_width o * m + o_tab_width o <= o_tab_width o * n) by nia.
  assert (Y : o_tab_width o * n <= o_tab_width o * N) by nia.
  unfold adv.
  destruct l as [a b|i]; destruct L as [L1 L2].
  - destruct (dchar (decode bs) =? EndOfFile); [|destruct ((dchar (decode bs) =? 10) || (dchar (decode bs) =? 13)); [|destruct (dchar (decode bs) =? CRLF); [|destruct (dchar (decode bs) =? 9)]]];
      try (cbn [locok loc_newline loc_windowsNewline loc_next]; repeat split; first [assumption|lia]).
    pose proof (Z.mul_div_le (b - 1) (o_tab_width o) Ht) as D. pose proof (Z.div_pos (b - 1) (o_tab_width o) ltac:(lia) Ht) as D2. cbn [locok].
    assert (0 <= o_tab_width o * ((b - 1) / o_tab_width o)) by nia. repeat split; first [assumption|lia].
  - destruct (dchar (decode bs) =? EndOfFile); [|destruct ((dchar (decode bs) =? 10) || (dchar (decode bs) =? 13)); [|destruct (dchar (decode bs) =? CRLF); [|destruct (dchar (decode bs) =? 9)]]];
      cbn [locok loc_newline loc_windowsNewline loc_next]; repeat split; first [assumption|lia].
Qed.
Lemma room_moves : forall bs l cs bs' l', moves o bs l cs bs' l' -> room (bs, l) -> room (bs', l').
Proof. intros bs l cs bs' l' M. induction M as [|bs l cs bs' l' NE M IH]; intros H; [exact H|]. apply IH, room_step; assumption. Qed.
Lemma room_R : forall s s', R o s s' -> room (here s) -> room (here s').
Proof. intros s s' [[cs [M _]] _] H. exact (room_moves _ _ _ _ _ M H). Qed.

Lemma room_reads : forall q p t, plain_request q -> reads o q p t -> room p -> room (past t).
Proof.
  intros q p t Hq (z & z' & I & <- & A) H. pose proof (ask_ok o q z I Hq) as K. unfold wpr in K. rewrite A in K.
  destruct K as (I' & R' & (A1 & A2 & A3 & A4 & A5 & A6 & A7)). exact (room_R z (mkst (after t) (lg z')) ltac:(auto) H).
Qed.
(** a token between two places with room *)
Definition roomy (t : token) : Prop := exists a b, room a /\ room b /\ t_src t = mkspan (snd a) (snd b) /\ loc_leb (snd a) (snd b) = Some true.
Lemma room_self : forall p, room p -> loc_leb (snd p) (snd p) = Some true.
Proof. intros [bs [a b|i]] _; cbn [snd loc_leb]; rewrite ?Z.ltb_irrefl, ?Z.eqb_refl, ?Z.leb_refl; reflexivity. Qed.
Lemma row_room : forall p l p', row o p l p' -> room p -> Forall roomy l.
Proof.
  intros p l p' H. induction H as [p|p t l p' Ht0 H IH]; intros P; [constructor|]. destruct Ht0 as [Hi|(q & u & Hq & Hr & NE & Hrl)].
  - rewrite (past_inserted p t Hi) in IH. constructor; [|apply IH; exact P]. destruct Hi as (_ & _ & _ & E). exists p, p. repeat (split; [assumption|]). exact (room_self p P).
  - pose proof (room_reads q p u Hq Hr P) as Q. rewrite <- (past_relabelled _ _ Hrl NE) in Q. destruct (relabelled_place _ _ _ _ _ Hq Hr Hrl NE) as (_ & E & L).
    constructor; [|apply IH; exact Q]. exists p, (past t). auto.
Qed.
Lemma roomy_position : forall t, 1 + (o_tab_width o + 1) * N < 2 ^ 32 -> 0 <= N -> roomy t -> text_position (SSpan (t_src t)).
Proof.
  intros t B HN ([bs l] & [bs' l'] & (L & _ & P) & (L' & _ & P') & -> & LE). cbn [fst snd] in *. remember (2 ^ 32) as M eqn:EM.
  set (n := Z.of_nat (length bs)) in *. set (m := Z.of_nat (length bs')) in *. assert (0 <= n /\ 0 <= m) by lia. clearbody n m.
  assert (X : 0 <= o_tab_width o * n) by nia. assert (X' : 0 <= o_tab_width o * m) by nia. assert (Y : o_tab_width o * N <= M - 2) by nia. assert (Z0 : N <= M - 2) by nia. assert (Z1 : 2 * N <= M - 2) by nia.
  destruct l as [a b|i], l' as [c d|j]; cbn [loc_leb] in LE; try discriminate LE; injection LE as LE; cbn [locok] in L, L'.
  - apply tp_lines; unfold u32; rewrite <- ?EM; lia.
  - apply tp_chars; unfold u32; rewrite <- ?EM; lia.
Qed.
End Places.

Lemma parse_positions : forall o dbg b input l s', 0 < o_tab_width o -> parse_cst_raw o dbg keep b input = Ok (l, s') -> 1 + (o_tab_width o + 1) * Z.of_nat (length input) < 2 ^ 32 ->
  forall n t, In n l -> In t (toks n) -> text_position (SSpan (t_src t)).
Proof.
  intros o dbg b input l s' Ht E B n t Hn Hin.
  destruct (parse_facts o dbg keep b input l s' Ht keep_ok E) as (s0 & us & z' & F1 & F2 & F3 & F4 & F5 & F6 & F7 & F8 & F9 & F10 & F11 & F12 & _).
  destruct F12 as (g & Hm & F12). apply mended_keep in Hm. subst g.
  assert (P0 : room o (Z.of_nat (length input)) (here (reader_new o input))).
  { unfold room, here, reader_new, newSourceLocation. cbn [cur ploc rest fst snd]. destruct (o_conv o) eqn:C; cbn [locok]; rewrite C; repeat split; lia. }
  pose proof (row_room o _ Ht _ _ _ F12 (room_R o _ Ht _ _ F5 P0)) as F. rewrite Forall_forall in F.
  apply (roomy_position o _ Ht t B ltac:(lia)). apply F. unfold leaves. apply in_flat_map. exists n. auto.
Qed.

(** trees of tokens with positions *)
Lemma solid_readable : forall fl k n, ~ in_boxes k -> solid n -> Forall (fun t => text_position (SSpan (t_src t))) (toks n) -> readable k (of_cst fl n).
Proof.
  intros fl k n NB. induction n as [n IH] using cst_ind'. intros S T.
  assert (Q : forall l, incl l (children n) -> Forall solid l -> Forall (readable k) (map (of_cst fl) l)).
  { intros l Hl Sl. rewrite Forall_forall in *. intros m Hm. apply in_map_iff in Hm as (x & <- & Hx). apply IH; [apply Hl; exact Hx|apply Sl; exact Hx|].
    rewrite Forall_forall. intros t Hin. apply T. destruct (nodes_toks n x ltac:(apply child_nodes; apply Hl; exact Hx)) as (u & v & ->). apply in_or_app. right. apply in_or_app. left. exact Hin. }
  inversion S as [t|h m op body N1 N2 S1 S2|er ch N1 S1|kd op ch N1 S1]; subst; cbn [of_cst].
  - apply rd_token. split; [intros X; contradiction|intros _]. cbn in T. inversion T; assumption.
  - rewrite children_call in *. pose proof (Q body (incl_appr _ (incl_refl _)) S2) as B. destruct h as [l|x].
    + apply rd_concrete; [|exact B]. apply Q; [apply incl_appl, incl_refl|exact S1].
    + apply rd_aggregate; [|exact B]. assert (X : Forall (readable k) (map (of_cst fl) [x])) by (apply Q; [apply incl_appl, incl_refl|exact S1]). inversion X; assumption.
  - apply rd_error. apply Q; [apply incl_refl|exact S1].
  - apply rd_op. apply Q; [apply incl_refl|exact S1].
Qed.
Lemma carries_nothing : forall fl n e, solid n -> ~ carries (of_cst fl n) e.
Proof.
  intros fl n. induction n as [n IH] using cst_ind'. intros e S C. rewrite Forall_forall in IH.
  assert (Q : forall l m, incl l (children n) -> Forall solid l -> In m (map (of_cst fl) l) -> carries m e -> False).
  { intros l m Hl Sl Hm Cm. apply in_map_iff in Hm as (x & <- & Hx). rewrite Forall_forall in Sl. exact (IH x (Hl _ Hx) e (Sl _ Hx) Cm). }
  inversion S as [t|h m op body N1 N2 S1 S2|er ch N1 S1|kd op ch N1 S1]; subst; cbn [of_cst] in C.
  - inversion C.
  - rewrite children_call in *. inversion C as [| | | | |h0 m0 op0 ch0 n0 e0 H1 H2|l0 m0 op0 ch0 n0 e0 H1 H2 Eh|m0 op0 ch0 n0 e0 H1 Eh]; subst.
    + eapply Q; [apply incl_appr, incl_refl|exact S2|exact H1|exact H2].
    + destruct h as [l|x]; [|discriminate Eh]. injection Eh as ->. eapply (Q l); [apply incl_appl, incl_refl|exact S1|exact H1|exact H2].
    + destruct h as [l|x]; [discriminate Eh|]. injection Eh as ->. eapply (Q [x]); [apply incl_appl, incl_refl|exact S1|left; reflexivity|exact H1].
  - inversion C; subst. eapply Q; [apply incl_refl|exact S1|eassumption|eassumption].
  - inversion C; subst. eapply Q; [apply incl_refl|exact S1|eassumption|eassumption].
Qed.

Lemma parse_readable : forall o dbg b input l s' fl k, 0 < o_tab_width o -> parse_cst_raw o dbg keep b input = Ok (l, s') -> 1 + (o_tab_width o + 1) * Z.of_nat (length input) < 2 ^ 32 -> ~ in_boxes k ->
  Forall (readable k) (map (of_cst fl) l) /\ (forall n e, In n (map (of_cst fl) l) -> ~ carries n e).
Proof.
  intros o dbg b input l s' fl k Ht E B NB.
  assert (S : forall n, In n l -> solid n).
  { destruct (parse_facts o dbg keep b input l s' Ht keep_ok E) as (s0 & us & z' & F1 & F2 & F3 & F4 & F5 & F6 & F7 & F8 & F9 & _). rewrite Forall_forall in F9. intros n Hn. apply shaped_solid. auto. }
  split.
  - rewrite Forall_forall. intros m Hm. apply in_map_iff in Hm as (n & <- & Hn). apply solid_readable; auto. rewrite Forall_forall. intros t Hin. eapply parse_positions; eauto.
  - intros m e Hm. apply in_map_iff in Hm as (n & <- & Hn). apply carries_nothing. auto.
Qed.
Lemma aggregate_readable : forall o dbg b input l s' l' fl k, 0 < o_tab_width o -> well_formed_no_bom input -> parse_cst_raw o dbg keep b input = Ok (l, s') -> aggregate_cst_seq l = Ok l' ->
  1 + (o_tab_width o + 1) * Z.of_nat (length input) < 2 ^ 32 -> ~ in_boxes k ->
  Forall (readable k) (map (of_cst fl) l') /\ (forall n e, In n (map (of_cst fl) l') -> ~ carries n e).
Proof.
  intros o dbg b input l s' l' fl k Ht W E Ea B NB.
  assert (S : forall n, In n l' -> solid n /\ Forall (fun t => text_position (SSpan (t_src t))) (toks n)).
  { intros n' Hn'. destruct (parse_good o dbg b input l s' l' n' Ht W E Ea Hn') as (G1 & G2 & _). split; [apply fits_solid; exact G1|].
    destruct (agg_seq_in _ _ _ Ea Hn') as (n & Hn & En). destruct (clean_parse o dbg b input l s' Ht W E n Hn) as (S & K & _).
    assert (G : Forall good_leaf (toks n)) by (eapply Forall_impl; [|exact K]; intros t Hc; exact (proj1 Hc)).
    destruct (shaped_heads n S G) as [_ NC]. pose proof (aggregate_tokens n n' _ _ NC En (tokens_of_toks n) (tokens_of_toks n')) as Et.
    rewrite Et. rewrite Forall_forall. intros t Hin. apply filter_In in Hin as [Hin _]. eapply parse_positions; eauto. }
  split.
  - rewrite Forall_forall. intros m Hm. apply in_map_iff in Hm as (n & <- & Hn). destruct (S n Hn). apply solid_readable; auto.
  - intros m e Hm. apply in_map_iff in Hm as (n & <- & Hn). destruct (S n Hn). apply carries_nothing. auto.
Qed.
