(** What the properties say about the parser. *)
From Coq Require Import ZArith List Bool Lia.
From Verif Require Import Base Source WLChar LongNames ByteDecoder CharDecoder Decode SpecText Iter
  TextProofs Logic LongNamesProofs WlDecode SpecReader ReaderProofs GenTokenKind TokenKind Format FormatProofs Tokenizer TokLogic
  TokenizerProofs SpecTokenizer TokenLoop TokSim TokAgree TokResults GenPrec GenOps GenParselets Parselets Cst SpecCst CstProofs Parser SpecParser SpecParse
  ParserLogic ParserRules ParserProofs ParserResults.
Import ListNotations.
Local Open Scope Z_scope.

(** ** No abort and no endless loop *)
Lemma parse_ends : forall o dbg repair b input, 0 < o_tab_width o -> (forall op ch, repair op ch <> OutOfFuel) -> parse_cst_raw o dbg repair b input <> OutOfFuel.
Proof.
  intros o dbg repair b input Ht Hr E. pose proof (parse_ok o dbg repair input True Ht (fun _ => I) (fun op ch _ _ _ => conj (fun _ => I) (Hr op ch)) (fun _ => or_intror I) b) as H.
  rewrite E in H. exact H.
Qed.

Lemma parse_total : forall o dbg repair b input, 0 < o_tab_width o -> ~ has_surrogate_escape input -> total_repair repair ->
  (dbg = true -> never_lexed o input TK_LongName_InvisibleComma) ->
  exists l s', parse_cst_raw o dbg repair b input = Ok (l, s') /\ quiescent s'.
Proof.
  intros o dbg repair b input Ht Hs Hr Hc. pose proof (parse_ok o dbg repair input False Ht Hs) as H.
  assert (Hr' : forall op ch, unclosed_group op ch -> Forall (shaped repair) ch -> placed o repair (reader_new o input) ch -> (repair op ch = Panic -> False) /\ repair op ch <> OutOfFuel).
  { intros op ch H1 _ _. destruct (Hr op ch H1) as [ch' ->]. split; discriminate. }
  specialize (H Hr' (fun Hd => or_introl (Hc Hd)) b). destruct (parse_cst_raw o dbg repair b input) as [[l s']| |]; try contradiction.
  destruct H as (s0 & ts & z' & _ & _ & _ & _ & _ & -> & _). exists l, (mkp z' [] [] []). split; auto. repeat split.
Qed.

Lemma parse_facts : forall o dbg repair b input l s', 0 < o_tab_width o -> (forall op ch, repair op ch <> OutOfFuel) ->
  parse_cst_raw o dbg repair b input = Ok (l, s') -> parse_result o repair input b l s'.
Proof.
  intros o dbg repair b input l s' Ht Hr E. pose proof (parse_ok o dbg repair input True Ht) as H. specialize (H (fun _ => I)). 
  specialize (H (fun op ch _ _ _ => conj (fun _ => I) (Hr op ch)) (fun _ => or_intror I) b). rewrite E in H. exact H.
Qed.
Lemma keep_ok : forall op ch, keep op ch <> OutOfFuel. Proof. discriminate. Qed.
Lemma Forall2_eq : forall A (R : A -> A -> Prop) l l', Forall2 R l l' -> (forall x y, In y l' -> R x y -> x = y) -> l = l'.
Proof. intros A R l l' F. induction F as [|x y l l' Hxy F IH]; intros H; auto. rewrite (H x y); [|left; auto|auto]. f_equal. apply IH. intros a b Hb. apply H. right. auto. Qed.
Lemma mended_same : forall repair, (forall op ch ch', repair op ch = Ok ch' -> ch' = ch) -> forall n g, mended repair g n -> g = n.
Proof.
  intros repair Hr. apply (cst_ind' (fun n => forall g, mended repair g n -> g = n)). intros n IH g H. rewrite Forall_forall in IH.
  assert (K : forall c d, Forall2 (mended repair) c d -> incl d (children n) -> c = d).
  { intros c d F Hi. apply (Forall2_eq _ (mended repair)); auto. }
  inversion H as [|? ? ? ? F|? ? ? F|? ? ? ? ? ? F1 F2|? ? ? ? F Hf|? ? ? ? ? ? ? F1 F2 Ho Hf]; subst; auto; cbn [children] in K.
  - rewrite (K _ _ F (incl_refl _)); auto.
  - rewrite (K _ _ F (incl_refl _)); auto.
  - rewrite (K _ _ F1 (incl_appl _ (incl_refl _))), (K _ _ F2 (incl_appr _ (incl_refl _))); auto.
  - apply Hr in Hf. subst. rewrite (K _ _ F (incl_refl _)); auto.
  - apply Hr in Hf. subst. rewrite (K _ _ F1 (incl_appl _ (incl_refl _))), (K _ _ F2 (incl_appr _ (incl_refl _))); auto.
Qed.
Lemma mended_keep : forall g l, Forall2 (mended keep) g l -> g = l.
Proof. intros g l F. eapply Forall2_eq; eauto. intros x y _. apply mended_same. intros op ch ch' H. injection H; auto. Qed.

(** one expression *)
Lemma expression_balanced : forall o dbg repair input s z t, 0 < o_tab_width o -> reached o input s -> weof (cur s) = false ->
  peek_token o false s = Ok (t, z) -> isTrivia (t_kind t) = false -> (forall op ch, repair op ch <> OutOfFuel) ->
  match run o dbg repair (depth_bound (mkp z [] [] [])) (CPrefix t) (mkp z [] [] []) with
  | Ok (_, s') => exists n, stack s' = [n] /\ ctxs s' = [] /\ groups s' = []
  | Panic => True
  | OutOfFuel => False
  end.
Proof.
  intros o dbg repair input s z t Ht Hr Hw Hp Htr Hrep. destruct (reached_Inv o input s Ht Hr) as [HI HR].
  assert (Hp' : ask o (qtop []) s = Ok (t, z)) by exact Hp.
  pose proof (ask_ok o (qtop []) s HI eq_refl) as W. unfold wpr in W. rewrite Hp' in W. destruct W as (I1 & R1 & (A1 & _)).
  assert (Hh : here z = here s) by (unfold here; rewrite A1; reflexivity).
  assert (Hl : looks o (qtop []) z t) by (exists s, z; split; auto; split; auto; split; auto; apply le_refl).
  assert (Hwi : within o (reader_new o input) (here z)) by (rewrite Hh; destruct HR as [(cs & M & _) _]; exists cs; exact M).
  pose proof (run_ok o dbg repair (reader_new o input) True (fun _ => I) (fun op ch _ _ _ => conj (fun _ => I) (Hrep op ch)) (fun _ _ _ _ _ _ _ => I) (here z) Hwi
    (depth_bound (mkp z [] [] [])) (CPrefix t) [] [] [] (mkp z [] [] [])) as H.
  unfold PW in H. destruct (run o dbg repair _ (CPrefix t) (mkp z [] [] [])) as [[u s']| |]; auto.
  - destruct H as (z' & n & -> & _); [| |exists n; auto].
    + exists z. split; auto. split; [split; auto; split; [eapply R_trans; eauto|congruence]|]. split; [exists []; split; constructor|]. split; auto.
      split; [eapply reads_solid; eauto; apply looks_reads; eauto|reflexivity].
    + unfold measure, depth_bound. cbn [tz]. pose proof (rank_prefix t). unfold len. lia.
  - apply H.
    + exists z. split; auto. split; [split; auto; split; [eapply R_trans; eauto|congruence]|]. split; [exists []; split; constructor|]. split; auto.
      split; [eapply reads_solid; eauto; apply looks_reads; eauto|reflexivity].
    + unfold measure, depth_bound. cbn [tz]. pose proof (rank_prefix t). unfold len. lia.
Qed.

(** ** Tokens *)
Lemma all_tokens_leaves : forall l ts, all_tokens l ts <-> ts = leaves l.
Proof.
  intros l ts. split.
  - intros (ls & F & ->). unfold leaves. rewrite flat_map_concat_map. f_equal. induction F as [|n u l ls Hn F IH]; auto. cbn. rewrite (tokens_of_det _ _ Hn). congruence.
  - intros ->. exists (map toks l). split; [|apply flat_map_concat_map]. induction l; constructor; auto. apply tokens_of_toks.
Qed.

Definition LEAF_KINDS : list Z := LEX_KINDS ++ INSERTED ++ [TK_Error_ExpectedTag; TK_Error_ExpectedFile; TK_Error_UnexpectedCloser; TK_Error_UnsupportedToken].
Lemma trivia_b : forallb (fun k => Bool.eqb (isTrivia k) (existsb (Z.eqb k) [TK_Whitespace; TK_Boxes_MultiWhitespace; TK_InternalNewline; TK_ToplevelNewline; TK_Comment])) LEAF_KINDS = true.
Proof. vm_compute. reflexivity. Qed.
Lemma inserted_b : forallb (fun k => negb (zin k INSERTED)) (LEX_KINDS ++ [TK_Error_ExpectedTag; TK_Error_ExpectedFile; TK_Error_UnexpectedCloser; TK_Error_UnsupportedToken]) = true.
Proof. vm_compute. reflexivity. Qed.

Definition READ_KINDS : list Z := LEX_KINDS ++ [TK_Error_ExpectedTag; TK_Error_ExpectedFile; TK_Error_UnexpectedCloser; TK_Error_UnsupportedToken].
Lemma told_kind : forall o p t, told_at o p t -> In (t_kind t) READ_KINDS.
Proof.
  intros o p t (q & u & Hq & Hr & N & Hl). apply in_or_app. destruct Hl as [->|[[_ ->]|[_ ->]]].
  - destruct (reads_asked o q p u Hq Hr) as (_ & _ & _ & [[K _]|[(g & pol & _ & K & _)|([K|K] & _)]] & _).
    + left. apply zin_In. exact K.
    + contradiction.
    + right. rewrite K. left. reflexivity.
    + right. rewrite K. right. left. reflexivity.
  - right. right. right. left. reflexivity.
  - right. right. right. right. left. reflexivity.
Qed.
Lemma read_not_inserted : forall k, In k READ_KINDS -> zin k INSERTED = false.
Proof. intros k H. apply negb_true_iff. exact (proj1 (forallb_forall _ _) inserted_b k H). Qed.
Lemma leaf_trivia : forall k, In k LEAF_KINDS -> isTrivia k = existsb (Z.eqb k) [TK_Whitespace; TK_Boxes_MultiWhitespace; TK_InternalNewline; TK_ToplevelNewline; TK_Comment].
Proof. intros k H. apply Bool.eqb_prop. exact (proj1 (forallb_forall _ _) trivia_b k H). Qed.
Lemma row_kind : forall o p l p', row o p l p' -> Forall (fun t => In (t_kind t) LEAF_KINDS) l.
Proof.
  intros o p l p' H. induction H as [p|p t l p' Ht H IH]; constructor; auto. destruct Ht as [(Hi & _)|Ht].
  - apply in_or_app. right. apply in_or_app. left. apply zin_In. exact Hi.
  - apply told_kind in Ht. apply in_app_or in Ht as [Ht|Ht]; apply in_or_app; [left; auto|right; apply in_or_app; right; auto].
Qed.
Lemma row_trivia : forall o p l p', row o p l p' -> Forall (fun t => isTrivia (t_kind t) = trivia_token t) l.
Proof. intros o p l p' H. eapply Forall_impl; [|eapply row_kind; eauto]. intros t Ht. apply leaf_trivia. exact Ht. Qed.

Lemma relabelled_place : forall o q p u t, plain_request q -> reads o q p u -> relabelled u t -> t_kind u <> TK_EndOfFile ->
  fst p = t_text t ++ fst (past t) /\ t_src t = mkspan (snd p) (snd (past t)) /\ loc_leb (snd p) (snd (past t)) = Some true.
Proof.
  intros o q p u t Hq Hr Hl N. destruct (reads_asked o q p u Hq Hr) as (_ & A2 & A3 & _ & A5). rewrite (past_relabelled _ _ Hl N).
  destruct Hl as [->|[[_ ->]|[_ ->]]]; auto.
Qed.
Lemma row_text : forall o p l p', row o p l p' -> fst p = concat (map t_text l) ++ fst p'.
Proof.
  intros o p l p' H. induction H as [p|p t l p' Ht H IH]; auto. cbn. rewrite <- app_assoc, <- IH. destruct Ht as [Hi|(q & u & Hq & Hr & N & Hl)].
  - rewrite (past_inserted p t Hi). destruct Hi as (_ & _ & E & _). rewrite E. reflexivity.
  - eapply relabelled_place; eauto.
Qed.
Lemma leb_self : forall o z, Inv o z -> loc_leb (ploc (cur z)) (ploc (cur z)) = Some true.
Proof. intros o z H. apply (R_leb o z z); auto. apply R_refl. Qed.
Lemma loc_leb_refl_end : forall l l', loc_leb l l' = Some true -> loc_leb l' l' = Some true.
Proof. intros [? ?|?] [? ?|?]; cbn; intros H; try discriminate H; f_equal; rewrite ?Z.ltb_irrefl, ?Z.eqb_refl, ?Z.leb_refl; auto. Qed.
Lemma row_in_a_row : forall o p l p', loc_leb (snd p) (snd p) = Some true -> row o p l p' -> in_a_row (snd p) l (snd p').
Proof.
  intros o p l p' Hl H. revert Hl. induction H as [p|p t l p' Ht H IH]; intros Hl; [constructor|]. destruct Ht as [Hi|(q & u & Hq & Hr & N & Hrl)].
  - rewrite (past_inserted p t Hi) in IH. destruct Hi as (_ & _ & _ & E). constructor; rewrite E; cbn; auto.
  - destruct (relabelled_place _ _ _ _ _ Hq Hr Hrl N) as (_ & E & L). constructor; rewrite E; cbn; auto. apply IH. eapply loc_leb_refl_end; eauto.
Qed.

Lemma parse_lossless : forall o dbg b input l s' ts, 0 < o_tab_width o -> parse_cst_raw o dbg keep b input = Ok (l, s') -> all_tokens l ts ->
  exists s0 script tail e, handle_first_line o b (reader_new o input) = Ok (tt, s0) /\ (b = NotScript -> script = []) /\
    input = script ++ rest (cur s0) /\ rest (cur s0) = concat (map t_text ts) ++ tail /\ starts_continuation tail /\
    in_a_row (ploc (cur s0)) ts e.
Proof.
  intros o dbg b input l s' ts Ht E Hts. apply all_tokens_leaves in Hts. subst ts.
  destruct (parse_facts o dbg keep b input l s' Ht keep_ok E) as (s0 & us & z' & F1 & F2 & F3 & F4 & F5 & F6 & F7 & F8 & F9 & F10 & F11 & F12 & (t & F13 & F14)).
  destruct F12 as (g & Hm & F12). apply mended_keep in Hm. subst g. exists s0, (concat (map t_text us)), (rest (cur z')), (ploc (cur z')).
  split; auto. split; [intros X; rewrite (F3 X); reflexivity|]. split; [destruct F2 as (_ & _ & X & _); exact X|].
  split; [exact (row_text _ _ _ _ F12)|]. split.
  - destruct (reads_asked o (qtop []) _ t eq_refl F13) as (_ & A2 & _ & [[K _]|[(g & pol & _ & _ & K1 & K2)|(_ & _ & [K|K])]] & _); try discriminate K.
    + destruct (lexable_facts _ K) as (_ & _ & X). apply Z.eqb_neq in X. contradiction.
    + change (rest (cur z')) with (fst (here z')). rewrite A2, K1, app_nil_r. exact K2.
  - refine (row_in_a_row o (here s0) _ (here z') _ F12). exact (leb_self o s0 F4).
Qed.

Lemma closer_list : forall k, isCloser k = true -> TokenToCloser k = k -> In k [TK_BarGreater; TK_CloseCurly; TK_CloseParen; TK_CloseSquare; TK_LongName_CloseCurlyDoubleQuote; TK_LongName_CloseCurlyQuote;
                   TK_LongName_RightAngleBracket; TK_LongName_RightAssociation; TK_LongName_RightBracketingBar; TK_LongName_RightCeiling;
                   TK_LongName_RightDoubleBracket; TK_LongName_RightDoubleBracketingBar; TK_LongName_RightFloor].
Proof.
  intros k H1 H2. unfold TokenToCloser in H2. cbn [switch] in H2.
  repeat match type of H2 with (if ?a =? ?b then _ else _) = _ => destruct (Z.eqb_spec a b) as [->|_]; [cbn; tauto|] end.
  exfalso. unfold Closer_AssertFalse in H2. rewrite <- H2 in H1. vm_compute in H1. discriminate.
Qed.

Lemma row_asked : forall o p l p', row o p l p' -> forall z, Inv o z -> here z = p -> ~ SE z ->
  exists qs us s1, Forall plain_request qs /\ ask_all o qs z = Ok (us, s1) /\ Forall2 retold us (filter (fun t => negb (inserted t)) l) /\
    Forall (fun t => inserted t = true -> t_text t = []) l /\ Forall (fun u => t_kind u <> TK_EndOfFile) us /\ here s1 = p' /\ Inv o s1 /\ ~ SE s1.
Proof.
  intros o p l p' H. induction H as [p|p t l p' Ht H IH]; intros z HI Hz Hs.
  - exists [], [], z. cbn. repeat (split; [constructor|]). auto.
  - destruct Ht as [Hi|Ht].
    + pose proof (past_inserted p t Hi) as Hp. destruct (IH z HI (eq_trans Hz (eq_sym Hp)) Hs) as (qs & us & s1 & J1 & J2 & J3 & J4 & J5 & J6).
      exists qs, us, s1. split; auto. split; auto. destruct Hi as (Hk & _ & Hx & _). cbn [filter]. unfold inserted at 1. rewrite Hk. cbn [negb]. auto.
    + pose proof (read_not_inserted _ (told_kind _ _ _ Ht)) as Hni. destruct Ht as (q & u & Hq & Hr & N & Hl).
      destruct (ask_total o q z HI Hq Hs) as (u' & z1 & A1 & I1 & A2).
      assert (u' = u). { eapply reads_det; eauto. exists z, z1. auto. } subst u'.
      pose proof A2 as (B1 & B2 & B3 & _).
      destruct (IH (mkst (after u) (lg z1))) as (qs & us & s1 & J1 & J2 & J3 & J4 & J5 & J6); auto.
      * rewrite (past_relabelled _ _ Hl N). reflexivity.
      * intros X. apply Hs. eapply R_surr; eauto.
      * exists (q :: qs), (u :: us), s1. split; auto. split.
        { cbn [ask_all]. unfold bind. rewrite A1, skip_eq. rewrite J2. reflexivity. }
        cbn [filter]. unfold inserted at 1. rewrite Hni. cbn [negb]. split; [|split; [constructor; auto; unfold inserted; congruence|split; auto]].
        constructor; auto. destruct Hl as [->|[[Hc ->]|[Hc ->]]]; [left; auto|right; left|right; right; auto].
        assert (Hk : solidk (t_kind u) = true).
        { destruct (reads_asked o q p u Hq Hr) as (_ & _ & _ & [[K _]|[(g & pol & _ & K & _)|([K|K] & _)]] & _); [|contradiction| |].
          - apply lexable_solid; auto. destruct (isTrivia (t_kind u)) eqn:Et; auto. exfalso.
            assert (X : forallb (fun k => negb (isTrivia k && isCloser k)) LEX_KINDS = true) by (vm_compute; reflexivity).
            pose proof (lexable_forall _ X _ K) as Y. cbn beta in Y. rewrite Et, Hc in Y. discriminate.
          - rewrite K in Hc. vm_compute in Hc. discriminate.
          - rewrite K in Hc. vm_compute in Hc. discriminate. }
        exists (t_kind u). split; auto. apply closer_list; auto. apply solidk_closer; auto.
Qed.

Lemma parse_tokens : forall o dbg b input l s' ts, 0 < o_tab_width o -> ~ has_surrogate_escape input -> parse_cst_raw o dbg keep b input = Ok (l, s') -> all_tokens l ts ->
  exists s0 qs us s1 eof s2, handle_first_line o b (reader_new o input) = Ok (tt, s0) /\ Forall plain_request qs /\ ask_all o qs s0 = Ok (us, s1) /\
    Forall2 retold us (filter (fun t => negb (inserted t)) ts) /\ Forall (fun t => inserted t = true -> t_text t = []) ts /\
    Forall (fun u => t_kind u <> TK_EndOfFile) us /\ peek_token o false s1 = Ok (eof, s2) /\ t_kind eof = TK_EndOfFile.
Proof.
  intros o dbg b input l s' ts Ht Hs E Hts. apply all_tokens_leaves in Hts. subst ts.
  destruct (parse_facts o dbg keep b input l s' Ht keep_ok E) as (s0 & us0 & z' & F1 & F2 & F3 & F4 & F5 & F6 & F7 & F8 & F9 & F10 & F11 & F12 & (t & F13 & F14)).
  destruct F12 as (g & Hm & F12). apply mended_keep in Hm. subst g. destruct (row_asked _ _ _ _ F12 s0 F4 eq_refl) as (qs & us & s1 & J1 & J2 & J3 & J4 & J5 & J6 & J7 & J8).
  { intros X. apply Hs. apply (R_surr _ _ _ F5). exact X. }
  destruct (ask_total o (qtop []) s1 J7 eq_refl J8) as (eof & s2 & A1 & _).
  assert (eof = t). { eapply (reads_det o (qtop []) (here z')); [reflexivity| |exact F13]. exists s1, s2. auto. } subst eof.
  exists s0, qs, us, s1, t, s2. do 7 (split; [assumption|]). exact F14.
Qed.

(** ** Shapes *)
Lemma shaped_keep : forall n, shaped keep n -> node_ok n /\ Forall (shaped keep) (children n).
Proof.
  intros n H. destruct H as [n H1 H0 H2|op ch ch' H1 H2 H3|l h op op' ch ch' H1 H2 H3 H4 H5 H6 H7 H8 H0]; auto.
  - injection H3 as <-. split; auto. constructor. auto.
  - injection H8 as <-. split; [eapply ok_call_missing_closer; eauto|]. cbn [children]. apply Forall_app. auto.
Qed.
Lemma shaped_left : forall n, shaped keep n -> left_ok n.
Proof. intros n H. destruct H as [n H1 H0 H2|op ch ch' H1 H2 H3|l h op op' ch ch' H1 H2 H3 H4 H5 H6 H7 H8 H0]; auto. apply left_other. reflexivity. Qed.
Lemma shaped_everywhere : forall n, shaped keep n -> everywhere node_ok n.
Proof.
  intros n H ns Hp. apply preorder_det in Hp. subst ns. revert n H.
  apply (cst_ind' (fun n => shaped keep n -> Forall node_ok (nodes n))). intros n IH H. apply shaped_keep in H as [H1 H2].
  rewrite nodes_eq. constructor; auto. apply Forall_forall. intros x Hx. apply in_flat_map in Hx as (m & Hm & Hx).
  rewrite Forall_forall in IH, H2. specialize (IH m Hm (H2 m Hm)). rewrite Forall_forall in IH. auto.
Qed.

Lemma parse_shape : forall o dbg b input l s', 0 < o_tab_width o -> parse_cst_raw o dbg keep b input = Ok (l, s') ->
  Forall (everywhere node_ok) l /\ Forall (fun n => trivia_leaf n = true \/ operand n = true) l /\ settled (parts l).
Proof.
  intros o dbg b input l s' Ht E.
  destruct (parse_facts o dbg keep b input l s' Ht keep_ok E) as (s0 & us0 & z' & F1 & F2 & F3 & F4 & F5 & F6 & F7 & F8 & F9 & F10 & F11 & _).
  split; auto. eapply Forall_impl; [|exact F9]. apply shaped_everywhere.
Qed.

(** ** Brackets *)
Definition CLOSERS : list Z := [TK_BarGreater; TK_CloseCurly; TK_CloseParen; TK_CloseSquare; TK_LongName_CloseCurlyDoubleQuote; TK_LongName_CloseCurlyQuote;
  TK_LongName_RightAngleBracket; TK_LongName_RightAssociation; TK_LongName_RightBracketingBar; TK_LongName_RightCeiling;
  TK_LongName_RightDoubleBracket; TK_LongName_RightDoubleBracketingBar; TK_LongName_RightFloor].
Lemma closer_cases : forall k, In k CLOSERS \/ TokenToCloser k = Closer_AssertFalse.
Proof.
  intros k. unfold TokenToCloser. cbn [switch].
  repeat match goal with |- _ \/ (if ?a =? ?b then _ else _) = _ => destruct (Z.eqb_spec a b) as [->|_]; [left; cbn; tauto|] end. auto.
Qed.
Lemma closes_matching : forall t u, closes t u <-> matching t u.
Proof.
  intros t u. unfold closes, matching. split.
  - intros H. destruct (closer_cases (t_kind u)) as [Hu|Hu].
    + generalize dependent (t_kind u). intros k H Hu. unfold CLOSERS in Hu. cbn [In] in Hu. unfold GroupOpenerToCloser in H. cbn [switch] in H.
      repeat match type of H with (if ?a =? ?b then _ else _) = _ => destruct (Z.eqb_spec a b) as [->|_];
        [repeat (destruct Hu as [<-|Hu]; [first [discriminate H|unfold BRACKETS; cbn [In]; tauto]|]); contradiction|] end. discriminate H.
    + exfalso. rewrite Hu in H. unfold GroupOpenerToCloser in H. cbn [switch] in H.
      repeat match type of H with (if ?a =? ?b then _ else _) = _ => destruct (a =? b); [discriminate H|] end. discriminate H.
  - intros H. unfold BRACKETS in H. cbn [In] in H. repeat (destruct H as [H|H]; [injection H as <- <-; reflexivity|]). contradiction.
Qed.
Lemma matching_solid : forall t u, matching t u -> isTrivia (t_kind u) = false /\ trivia_token u = false.
Proof.
  intros t u H. unfold matching, BRACKETS in H. cbn [In] in H. unfold trivia_token.
  repeat (destruct H as [H|H]; [injection H as _ <-; split; reflexivity|]). contradiction.
Qed.

Lemma settled_mid : forall a m c, settled (a ++ m :: c) -> open_ended m = true -> c = [].
Proof.
  intros a m c H Hm. destruct c as [|x c]; auto. exfalso. unfold settled in H. rewrite removelast_app in H by discriminate.
  apply Forall_app in H as [_ H]. cbn [removelast] in H. inversion H; congruence.
Qed.
Lemma lasto_app : forall a b x, lasto (a ++ b) x = lasto b (lasto a x).
Proof. intros. apply fold_left_app. Qed.
Lemma lasto_trivia : forall c x, parts c = [] -> lasto c x = x.
Proof.
  induction c as [|n c IH]; intros x H; auto. cbn [parts filter] in H. destruct (trivia_leaf n) eqn:E; [|discriminate]. cbn [lasto fold_left]. rewrite E. apply IH. exact H.
Qed.
Lemma lasto_last : forall a m c x, parts c = [] -> trivia_leaf m = false -> lasto (a ++ m :: c) x = open_ended m.
Proof. intros a m c x H1 H2. rewrite lasto_app. cbn [lasto fold_left]. rewrite H2. apply lasto_trivia. exact H1. Qed.
Lemma open_solid : forall m, open_ended m = true -> trivia_leaf m = false.
Proof. intros [] H; try reflexivity. discriminate H. Qed.
Lemma trivia_significant : forall c, parts c = [] -> Forall (fun t => isTrivia (t_kind t) = trivia_token t) (leaves c) -> significant (leaves c) = [].
Proof.
  induction c as [|n c IH]; intros H F; auto. cbn [parts filter] in H. destruct (trivia_leaf n) eqn:E; [|discriminate]. destruct n as [t| | | | |]; try discriminate E.
  change (leaves (Tok t :: c)) with (t :: leaves c) in *. inversion F as [|t' l' F1 F2]; subst. cbn [significant filter]. rewrite <- F1. cbn [trivia_leaf] in E. rewrite E. cbn [negb]. apply IH; auto.
Qed.
Lemma significant_app : forall a b, significant (a ++ b) = significant a ++ significant b.
Proof. intros. apply filter_app. Qed.

Lemma compound_closed : forall op ch, compound_ok op ch -> closedl (parts ch).
Proof.
  intros op ch H. assert (K : closedl ch).
  { destruct H; repeat constructor. destruct H1 as [->|(u & -> & _)]; [reflexivity|]. cbn. destruct (isTrivia (t_kind u)), (isTrivia (t_kind t)); reflexivity. }
  unfold closedl in *. rewrite Forall_forall in *. intros n Hn. apply filter_In in Hn as [Hn _]. auto.
Qed.
(** nodes other than groups and calls *)
Definition plain_node (n : cst) : bool := match n with Op k _ _ => plain_op k | SynErr _ _ => true | _ => false end.
Lemma plain_settled : forall n, node_ok n -> plain_node n = true -> settled (parts (children n)).
Proof.
  intros n H Hp. destruct H as [t|op ch t a prec P|op ch t a b op2 P _ _ _ O1|op ch a t prec P _ _ O1|op ch a t b prec P _ _ O1|ch a t u P _ _ _ O1|
    op ch a t b u c p1 p2 P _ _ _ _ O1 O2|ch a t b u v P _ _ _ _ _ O1 O2|op prec ch Ha Hs|op ch Hc|op ch Hc|op ch Hc|l h op op' ch P _ O1|l h op op' ch P _ O1|e ch a t b P _ _ _ O1];
    try discriminate Hp; cbn [children]; try rewrite P; try (unfold settled; cbn [removelast]; repeat constructor; auto; fail); auto.
  apply closed_settled. eapply compound_closed; eauto.
Qed.
Lemma plain_edge : forall n a m c, plain_node n = true -> children n = a ++ m :: c -> parts c = [] -> open_ended m = true ->
  open_ended n = true /\ dangling n = dangling m.
Proof.
  intros n a m c Hp E Hc Hm. pose proof (open_solid _ Hm) as Ht. assert (D : last_dangling (parts (children n)) = dangling m).
  { rewrite E, parts_app, (parts_one m) by auto. rewrite Hc. apply last_dangling_snoc. }
  destruct n as [t|h ms op b|e ch|k op ch|b ch s|f s c0]; try discriminate Hp; cbn [children] in E, D.
  - split; [|rewrite dangling_err; exact D]. change (lasto ch false = true). rewrite E, lasto_last; auto.
  - split; [|rewrite dangling_op; auto]. assert (K : open_ended (Op k op ch) = lasto ch false) by (destruct k; try discriminate Hp; reflexivity). rewrite K, E, lasto_last; auto.
Qed.

Lemma app_mid : forall A (a b c d : list A) m, a ++ m :: b = c ++ d -> (exists e, c = a ++ m :: e /\ b = e ++ d) \/ (exists e, d = e ++ m :: b /\ a = c ++ e).
Proof.
  intros A a b c d m. revert c. induction a as [|x a IH]; intros c H.
  - destruct c as [|y c]; [right; exists []; auto|]. cbn in H. injection H as <- ->. left. exists c. auto.
  - destruct c as [|y c]; [right; exists (x :: a); auto|]. cbn in H. injection H as <- H. destruct (IH c H) as [(e & -> & ->)|(e & -> & ->)]; [left|right]; exists e; auto.
Qed.

Definition bracket_edge (aft ops : list token) (t0 : token) (n : cst) : Prop :=
  (significant aft = [] /\ open_ended n = true /\ Forall (fun t => exists c, GroupOpenerToCloser (t_kind t) = Ok c /\ In c (dangling n)) (t0 :: ops)) \/
  (exists u r i t e, significant aft = u :: r /\ ops = i ++ t :: e /\ matching t u /\ Forall (fun t' => ~ matching t' u) (t0 :: i)).

Lemma edge_right : forall aft ops t0 ts os n m, bracket_edge aft ops t0 m -> ~ (significant aft = [] /\ open_ended m = true) -> bracket_edge (aft ++ ts) (ops ++ os) t0 n.
Proof.
  intros aft ops t0 ts os n m [(H1 & H2 & _)|(u & r & i & t & e & H1 & H2 & H3 & H4)] Hn; [exfalso; auto|]. right.
  exists u, (r ++ significant ts), i, t, (e ++ os). rewrite significant_app, H1, H2, <- app_assoc. auto.
Qed.
Lemma opens_closer : forall op t, opens op t -> In (t_kind t) LEAF_KINDS -> exists c, GroupOpenerToCloser (t_kind t) = Ok c.
Proof.
  intros op t (opener & H) K.
  assert (X : forallb (fun k => match prefix_of k with PP_Group _ _ => match GroupOpenerToCloser k with Ok _ => true | _ => false end | _ => true end) LEAF_KINDS = true) by (vm_compute; reflexivity).
  pose proof (proj1 (forallb_forall _ _) X _ K) as Y. cbn beta in Y. rewrite H in Y. destruct (GroupOpenerToCloser (t_kind t)); try discriminate. eauto.
Qed.

(** the closing bracket of a group after an unterminated group inside *)
Lemma edge_closed : forall op ch a m c aft ops t0 n os, closed_group op ch -> ch = a ++ m :: c -> os = match a, ch with _ :: _, Tok t :: _ => [t] | _, _ => [] end ->
  Forall (fun t => isTrivia (t_kind t) = trivia_token t) (leaves c) -> bracket_edge aft ops t0 m -> bracket_edge (aft ++ leaves c) (ops ++ os) t0 n.
Proof.
  intros op ch a m c aft ops t0 n os (t & mid & u & Ech & Hop & Hcl & _ & Hset & Hd) E Eos Htr [(H1 & H2 & H3)|H]; [|apply (edge_right _ _ _ _ _ _ m); [right; exact H|]].
  2: { destruct H as (u' & r & _ & _ & _ & Hu & _). intros [X _]. congruence. }
  right. rewrite Ech in E. destruct a as [|x a]; cbn [app] in E; injection E as E1 E2; [subst m; discriminate H2|]. subst x.
  destruct (app_mid _ a c mid [Tok u] m (eq_sym E2)) as [(c' & -> & ->)|(e & E3 & ->)].
  2: { destruct e as [|y e]; [injection E3 as <- _; discriminate H2|injection E3 as _ E3; destruct e; discriminate E3]. }
  pose proof (open_solid _ H2) as Hm. rewrite parts_app, (parts_one m) in Hset by auto. pose proof (settled_mid _ _ _ Hset H2) as Hc'.
  rewrite parts_app, (parts_one m), Hc', last_dangling_snoc in Hd by auto. rewrite leaves_app in Htr |- *. apply Forall_app in Htr as [Htr _].
  apply closes_matching in Hcl. destruct (matching_solid _ _ Hcl) as [_ Tu].
  exists u, [], ops, t, []. rewrite !significant_app, H1, (trivia_significant _ Hc' Htr). subst os ch. split.
  { cbn. unfold significant. cbn [filter]. rewrite Tu. reflexivity. }
  split; auto. split; auto. eapply Forall_impl; [|exact H3]. cbn beta. intros t' (k & Hk & Hin) Hm'. apply closes_matching in Hm'. unfold closes in Hm'. rewrite Hk in Hm'. injection Hm' as E9. rewrite E9 in Hin. auto.
Qed.
(** the right edge of an unterminated group *)
Lemma edge_unclosed : forall op ch a m c aft ops t0 n os, unclosed_group op ch -> ch = a ++ m :: c -> os = match a, ch with _ :: _, Tok t :: _ => [t] | _, _ => [] end ->
  Forall (fun t => isTrivia (t_kind t) = trivia_token t /\ In (t_kind t) LEAF_KINDS) (leaves ch) -> bracket_edge aft ops t0 m ->
  open_ended n = true -> (forall t mid, ch = Tok t :: mid -> dangling n = closer_of t ++ last_dangling (parts mid)) -> bracket_edge (aft ++ leaves c) (ops ++ os) t0 n.
Proof.
  intros op ch a m c aft ops t0 n os (t & mid & Ech & Hop & _ & Hset) E Eos Htr [(H1 & H2 & H3)|H] Hn Hd; [|apply (edge_right _ _ _ _ _ _ m); [right; exact H|]].
  2: { destruct H as (u' & r & _ & _ & _ & Hu & _). intros [X _]. congruence. }
  left. rewrite Ech in E. destruct a as [|x a]; cbn [app] in E; injection E as E1 E2; [subst m; discriminate H2|]. subst x mid.
  pose proof (open_solid _ H2) as Hm. rewrite parts_app, (parts_one m) in Hset by auto. pose proof (settled_mid _ _ _ Hset H2) as Hc.
  specialize (Hd _ _ Ech). rewrite parts_app, (parts_one m), Hc, last_dangling_snoc in Hd by auto.
  subst ch os. change (Tok t :: a ++ m :: c) with ([Tok t] ++ a ++ m :: c) in Htr. rewrite !leaves_app in Htr. change (leaves [Tok t]) with [t] in Htr. apply Forall_app in Htr as [Ht Htr]. apply Forall_app in Htr as [_ Htr].
  change (m :: c) with ([m] ++ c) in Htr. rewrite leaves_app in Htr. apply Forall_app in Htr as [_ Htr].
  rewrite significant_app, H1, trivia_significant; auto; [|eapply Forall_impl; [|exact Htr]; cbn; tauto]. split; auto. split; auto.
  inversion Ht as [|t' l' [_ Ht'] _]; subst. destruct (opens_closer _ _ Hop Ht') as (k & Hk). inversion H3 as [|t'' l'' X1 X2]; subst.
  assert (K : forall t', (exists c0, GroupOpenerToCloser (t_kind t') = Ok c0 /\ In c0 (dangling m)) -> exists c0, GroupOpenerToCloser (t_kind t') = Ok c0 /\ In c0 (dangling n)).
  { intros t' (k' & Y1 & Y2). exists k'. split; auto. rewrite Hd. apply in_or_app. auto. }
  constructor; auto. apply Forall_app. split; [eapply Forall_impl; [|exact X2]; auto|]. constructor; auto. exists k. split; auto. rewrite Hd. unfold closer_of. rewrite Hk. left. reflexivity.
Qed.

Lemma toks_children : forall n, (exists t, n = Tok t) \/ (exists a b c, n = CodeN a b c) \/ toks n = leaves (children n).
Proof. intros [t|h m op b|e ch|k op ch|b ch s|f s c]; eauto; right; right; [|reflexivity..]. rewrite children_call, leaves_app. destruct h as [l|x]; [reflexivity|]. cbn [toks head_nodes leaves flat_map]. rewrite app_nil_r. reflexivity. Qed.

Lemma edges : forall n g aft ops t0, below n g aft ops -> missing_closer g t0 -> shaped keep n ->
  Forall (fun t => isTrivia (t_kind t) = trivia_token t /\ In (t_kind t) LEAF_KINDS) (toks n) -> bracket_edge aft ops t0 n.
Proof.
  intros n g aft ops t0 H Hg. induction H as [g|n a m c ts g aft ops Ech Hts H IH]; intros Hs Ht.
  - left. split; auto. assert (K : open_ended g = true /\ exists mid, dangling g = closer_of t0 ++ last_dangling (parts mid)).
    { destruct Hg as [(op & ch & ->)|(h & op & ch & ->)]; (split; [reflexivity|]); exists ch; [apply dangling_missing|].
      change (closer_of t0 ++ lastd ch [] = closer_of t0 ++ last_dangling (parts ch)). rewrite lastd_parts. reflexivity. }
    destruct K as (K1 & mid & K2). split; auto. constructor; auto.
    apply shaped_keep in Hs as [Hs _]. assert (U : exists op, opens op t0 /\ In t0 (toks g)).
    { destruct Hg as [(op & ch & ->)|(h & op & ch & ->)].
      - inversion Hs as [| | | | | | | | | | |op' ch' (t & m & E & Ho & _)| | |]; subst. injection E as <- <-. exists op. split; auto. left. reflexivity.
      - inversion Hs as [| | | | | | | | | | | | |l h0 op0 op' ch' _ _ _ _ (t & m & E & Ho & _)|]; subst. injection E as <- <-. exists op0. split; auto. cbn. apply in_or_app. right. left. reflexivity. }
    destruct U as (op & U1 & U2). rewrite Forall_forall in Ht. destruct (opens_closer _ _ U1 (proj2 (Ht _ U2))) as (k & Hk). exists k. split; auto. rewrite K2. unfold closer_of. rewrite Hk. left. reflexivity.
  - apply all_tokens_leaves in Hts. subst ts. apply shaped_keep in Hs as [Hok Hsh]. specialize (IH Hg).
    assert (Ht' : Forall (fun t => isTrivia (t_kind t) = trivia_token t /\ In (t_kind t) LEAF_KINDS) (leaves (children n))).
    { destruct (toks_children n) as [(t & ->)|[(x & y & w & ->)|<-]]; auto; constructor. }
    rewrite Ech in Hsh, Ht'. change (m :: c) with ([m] ++ c) in Ht'. rewrite !leaves_app in Ht'. apply Forall_app in Ht' as [Ht1 Ht2]. apply Forall_app in Ht2 as [Ht2 Ht3].
    apply Forall_app in Hsh as [_ Hsh]. inversion Hsh as [|m' c' Hm _]; subst. unfold leaves in Ht2. cbn [flat_map] in Ht2. rewrite app_nil_r in Ht2. specialize (IH Hm Ht2).
    assert (Ht3' : Forall (fun t => isTrivia (t_kind t) = trivia_token t) (leaves c)) by (eapply Forall_impl; [|exact Ht3]; cbn; tauto).
    destruct (plain_node n) eqn:Epl.
    { assert (Eo : opener_of n (length a) = []) by (destruct n as [| | |[]| |]; try discriminate Epl; reflexivity). rewrite Eo.
      destruct IH as [(H1 & H2 & H3)|IH]; [|apply (edge_right _ _ _ _ _ _ m); [right; exact IH|]; destruct IH as (u' & r & _ & _ & _ & Hu & _); intros [X _]; congruence].
      pose proof (plain_settled n Hok Epl) as Hset. rewrite Ech, parts_app, (parts_one m) in Hset by (apply open_solid; auto). pose proof (settled_mid _ _ _ Hset H2) as Hc.
      destruct (plain_edge n a m c Epl Ech Hc H2) as [K1 K2]. left. rewrite significant_app, H1, trivia_significant, app_nil_r; auto. split; auto. split; auto. rewrite app_nil_r, K2. exact H3. }
    destruct Hok as [t|op ch t x prec P|op ch t x b op2 P|op ch x t prec P|op ch x t b prec P|ch x t u P|
      op ch x t b u c' p1 p2 P|ch x t b u v P|op prec ch Ha Hst|op ch Hc|op ch Hc|op ch Hc|l h op op' ch P _ O1 Hcop Hc|l h op op' ch P _ O1 Hcop Hc|e ch x t b P]; try discriminate Epl.
    + destruct a; discriminate Ech.
    + cbn [children] in Ech. eapply edge_closed; eauto. destruct Hc as (t & mid & u & -> & _). destruct a; reflexivity.
    + cbn [children] in Ech. refine (edge_unclosed op ch a m c aft ops t0 (Op KGroupMissingCloser op ch) _ Hc Ech _ Ht IH eq_refl _).
      * destruct Hc as (t & mid & -> & _). destruct a; reflexivity.
      * intros t mid ->. apply dangling_missing.
    + cbn [children] in Ech. destruct (app_mid _ a c l ch m (eq_sym Ech)) as [(e & El & Ec)|(e & Ec & El)].
      * assert (X : open_ended m = false \/ trivia_leaf m = true).
        { rewrite El, parts_app in P. destruct (trivia_leaf m) eqn:Em; auto. left. rewrite (parts_one m) in P by auto. destruct (parts a) as [|y [|w ys]]; cbn [app] in P; injection P as -> P'; auto; discriminate P'. }
        apply (edge_right _ _ _ _ _ _ m IH). intros [_ Y]. destruct X as [X|X]; [congruence|]. pose proof (open_solid _ Y). congruence.
      * eapply edge_closed; eauto. destruct Hc as (t & mid & u & -> & _). subst a. cbn [opener_of]. rewrite app_length. destruct e; cbn [length].
        { rewrite Nat.add_0_r, Nat.leb_refl. reflexivity. } { rewrite (proj2 (Nat.leb_gt _ _)); [reflexivity|lia]. }
    + cbn [children] in Ech. destruct (app_mid _ a c l ch m (eq_sym Ech)) as [(e & El & Ec)|(e & Ec & El)].
      * assert (X : open_ended m = false \/ trivia_leaf m = true).
        { rewrite El, parts_app in P. destruct (trivia_leaf m) eqn:Em; auto. left. rewrite (parts_one m) in P by auto. destruct (parts a) as [|y [|w ys]]; cbn [app] in P; injection P as -> P'; auto; discriminate P'. }
        apply (edge_right _ _ _ _ _ _ m IH). intros [_ Y]. destruct X as [X|X]; [congruence|]. pose proof (open_solid _ Y). congruence.
      * refine (edge_unclosed op ch e m c aft ops t0 (Call (Concrete l) true op' ch) _ Hc Ec _ _ IH eq_refl _).
        { destruct Hc as (t & mid & -> & _). subst a. cbn [opener_of]. rewrite app_length. destruct e; cbn [length].
          - rewrite Nat.add_0_r, Nat.leb_refl. reflexivity.
          - rewrite (proj2 (Nat.leb_gt _ _)); [reflexivity|lia]. }
        { rewrite Ec. change (m :: c) with ([m] ++ c). rewrite !leaves_app. subst a. rewrite leaves_app in Ht1. apply Forall_app in Ht1 as [_ Ht1]. apply Forall_app. split; auto. apply Forall_app. split; auto. unfold leaves. cbn [flat_map]. rewrite app_nil_r. auto. }
        { intros t mid ->. change (closer_of t ++ lastd mid [] = closer_of t ++ last_dangling (parts mid)). rewrite lastd_parts. reflexivity. }
Qed.

Lemma parse_row : forall o dbg b input l s', 0 < o_tab_width o -> parse_cst_raw o dbg keep b input = Ok (l, s') ->
  Forall (shaped keep) l /\ settled (parts l) /\ Forall (fun t => isTrivia (t_kind t) = trivia_token t /\ In (t_kind t) LEAF_KINDS) (leaves l).
Proof.
  intros o dbg b input l s' Ht E.
  destruct (parse_facts o dbg keep b input l s' Ht keep_ok E) as (s0 & us0 & z' & F1 & F2 & F3 & F4 & F5 & F6 & F7 & F8 & F9 & F10 & F11 & F12 & _).
  destruct F12 as (g & Hm & F12). apply mended_keep in Hm. subst g. split; auto. split; auto. pose proof (row_trivia _ _ _ _ F12) as T. pose proof (row_kind _ _ _ _ F12) as K. rewrite Forall_forall in *. auto.
Qed.

Lemma parse_missing : forall o dbg b input l s' a n c ts g t0 aft ops u r, 0 < o_tab_width o -> parse_cst_raw o dbg keep b input = Ok (l, s') ->
  l = a ++ n :: c -> all_tokens c ts -> below n g aft ops -> missing_closer g t0 -> significant (aft ++ ts) = u :: r ->
  exists i t e, ops = i ++ t :: e /\ matching t u /\ Forall (fun t' => ~ matching t' u) (t0 :: i).
Proof.
  intros o dbg b input l s' a n c ts g t0 aft ops u r Ht E El Hts Hb Hg Hu. destruct (parse_row _ _ _ _ _ _ Ht E) as (F1 & F2 & F3). apply all_tokens_leaves in Hts. subst l ts.
  apply Forall_app in F1 as [_ F1]. inversion F1 as [|n' c' Hn _]; subst. change (n :: c) with ([n] ++ c) in F3. rewrite !leaves_app in F3. apply Forall_app in F3 as [_ F3]. apply Forall_app in F3 as [F3 F4].
  unfold leaves in F3. cbn [flat_map] in F3. rewrite app_nil_r in F3. destruct (edges n g aft ops t0 Hb Hg Hn F3) as [(H1 & H2 & _)|(u' & r' & i & t & e & H1 & H2 & H3 & H4)].
  - exfalso. rewrite parts_app, (parts_one n) in F2 by (apply open_solid; auto). pose proof (settled_mid _ _ _ F2 H2) as Hc. rewrite significant_app, H1, trivia_significant in Hu; auto; [discriminate|].
    eapply Forall_impl; [|exact F4]; cbn; tauto.
  - rewrite significant_app, H1 in Hu. injection Hu as Eu _. subst u'. exists i, t, e. auto.
Qed.

Lemma parse_bracketed : forall o dbg b input l s' n ns g t u, 0 < o_tab_width o -> parse_cst_raw o dbg keep b input = Ok (l, s') ->
  In n l -> preorder n ns -> In g ns -> bracketed g t u -> matching t u.
Proof.
  intros o dbg b input l s' n ns g t u Ht E Hn Hp Hg Hb. destruct (parse_shape _ _ _ _ _ _ Ht E) as (F & _). rewrite Forall_forall in F. specialize (F _ Hn _ Hp). rewrite Forall_forall in F. specialize (F _ Hg).
  apply closes_matching. destruct Hb as [(op & ch & ->)|(h & op & ch & ->)]; inversion F as [| | | | | | | | | |op' ch' CG| |l' h' op0 op' ch' _ _ _ _ CG| |]; subst;
    destruct CG as (t' & mid & u' & E' & _ & Hc & _); injection E' as <- E'; apply app_inj_tail in E' as [_ E']; injection E' as <-; exact Hc.
Qed.

(** ** What the rest of the library relies on *)
Lemma nodes_self : forall n, In n (nodes n). Proof. intros n. rewrite nodes_eq. left. reflexivity. Qed.
Lemma nodes_toks : forall n m, In m (nodes n) -> exists a b, toks n = a ++ toks m ++ b.
Proof.
  apply (cst_ind' (fun n => forall m, In m (nodes n) -> exists a b, toks n = a ++ toks m ++ b)). intros n IH m H. rewrite nodes_eq in H. destruct H as [<-|H].
  - exists [], []. rewrite app_nil_r. reflexivity.
  - apply in_flat_map in H as (c & Hc & Hm). rewrite Forall_forall in IH. destruct (IH c Hc m Hm) as (a & b & E). apply in_split in Hc as (l1 & l2 & El).
    destruct (toks_children n) as [(t & ->)|[(x & y & w & ->)|Et]]; [destruct l1; discriminate El|destruct l1; discriminate El|].
    rewrite Et, El. change (c :: l2) with ([c] ++ l2). rewrite !leaves_app. unfold leaves at 2. cbn [flat_map]. rewrite app_nil_r, E. exists (leaves l1 ++ a), (b ++ leaves l2). rewrite !app_assoc. reflexivity.
Qed.
Lemma shaped_nodes : forall n, shaped keep n -> Forall node_ok (nodes n).
Proof. intros n H. apply (shaped_everywhere n H). apply preorder_nodes. Qed.

Lemma parts_nonempty : forall l ps, parts l = ps -> ps <> [] -> l <> [].
Proof. intros l ps H N ->. apply N. rewrite <- H. reflexivity. Qed.
Lemma node_children : forall n, node_ok n -> (forall k op ch, n = Op k op ch -> ch <> []) /\ (forall e ch, n = SynErr e ch -> ch <> []) /\
  (forall h m op ch, n = Call h m op ch -> head_nodes h <> [] /\ ch <> []) /\ (forall b ch s, n <> BoxN b ch s) /\ (forall f s c, n <> CodeN f s c).
Proof.
  intros n H. destruct H as [t|op ch t x prec P|op ch t x b op2 P|op ch x t prec P|op ch x t b prec P|ch x t u P|
      op ch x t b u c' p1 p2 P|ch x t b u v P|op prec ch Ha Hst|op ch Hc|op ch Hc|op ch Hc|l h op op' ch P _ O1 Hcop Hc|l h op op' ch P _ O1 Hcop Hc|e ch x t b P];
    (split; [|split; [|split; [|split]]]); try (intros; discriminate);
    try (intros k0 op0 ch0 E0; injection E0 as <- <- <-; eapply parts_nonempty; [exact P|discriminate]).
  - intros k0 op0 ch0 E0. injection E0 as <- <- <-. eapply parts_nonempty; [reflexivity|eapply alternate_nonempty; eauto].
  - intros k0 op0 ch0 E0. injection E0 as <- <- <-. destruct Hc; discriminate.
  - intros k0 op0 ch0 E0. injection E0 as <- <- <-. destruct Hc as (? & ? & ? & -> & _). discriminate.
  - intros k0 op0 ch0 E0. injection E0 as <- <- <-. destruct Hc as (? & ? & -> & _). discriminate.
  - intros h0 m0 op0 ch0 E0. injection E0 as <- <- <- <-. split; [cbn; eapply parts_nonempty; [exact P|discriminate]|]. destruct Hc as (? & ? & ? & -> & _). discriminate.
  - intros h0 m0 op0 ch0 E0. injection E0 as <- <- <- <-. split; [cbn; eapply parts_nonempty; [exact P|discriminate]|]. destruct Hc as (? & ? & -> & _). discriminate.
  - intros e0 ch0 E0. injection E0 as <- <-. eapply parts_nonempty; [exact P|discriminate].
Qed.
Lemma shaped_solid : forall n, shaped keep n -> solid n.
Proof.
  apply (cst_ind' (fun n => shaped keep n -> solid n)). intros n IH H. apply shaped_keep in H as [H1 H2]. destruct (node_children n H1) as (K1 & K2 & K3 & K4 & K5).
  assert (F : Forall solid (children n)) by (rewrite Forall_forall in *; auto). destruct n as [t|h m op b|e ch|k op ch|b ch s|f s c].
  - constructor.
  - destruct (K3 _ _ _ _ eq_refl). rewrite children_call in F. apply Forall_app in F as [F1 F2]. constructor; auto.
  - constructor; eauto.
  - constructor; eauto.
  - exfalso. eapply K4; eauto.
  - exfalso. eapply K5; eauto.
Qed.

Lemma shaped_node_in : forall n m, shaped keep n -> In m (nodes n) -> shaped keep m.
Proof.
  intros n m H. revert n H. apply (cst_ind' (fun n => shaped keep n -> In m (nodes n) -> shaped keep m)). intros n IH H Hm. rewrite nodes_eq in Hm. destruct Hm as [<-|Hm]; auto.
  apply in_flat_map in Hm as (c & Hc & Hm). apply shaped_keep in H as [_ H]. rewrite Forall_forall in *. eauto.
Qed.

Lemma parse_source : forall o dbg b input l s' n ns m ts, 0 < o_tab_width o -> parse_cst_raw o dbg keep b input = Ok (l, s') ->
  In n l -> preorder n ns -> In m ns -> tokens_of m ts -> exists a e, in_a_row a ts e /\ get_source m = Ok (mkspan a e).
Proof.
  intros o dbg b input l s' n ns m ts Ht E Hn Hp Hm Hts. destruct (parse_lossless o dbg b input l s' (leaves l) Ht E) as (s0 & sc & tl & e & _ & _ & _ & _ & _ & Hr); [apply all_tokens_leaves; auto|].
  destruct (parse_row _ _ _ _ _ _ Ht E) as (F1 & _ & _). apply preorder_det in Hp. subst ns. apply tokens_of_det in Hts. subst ts.
  destruct (nodes_toks n m Hm) as (x & y & Ex). assert (El : exists x' y', leaves l = x' ++ toks m ++ y').
  { apply in_split in Hn as (l1 & l2 & ->). change (n :: l2) with ([n] ++ l2). rewrite !leaves_app. unfold leaves at 2. cbn [flat_map]. rewrite app_nil_r, Ex. exists (leaves l1 ++ x), (y ++ leaves l2). rewrite !app_assoc. reflexivity. }
  destruct El as (x' & y' & El). rewrite El in Hr. apply row_app in Hr as (p1 & _ & Hr). apply row_app in Hr as (p2 & Hr & _). exists p1, p2. split; auto.
  apply get_source_row; auto. apply shaped_solid. rewrite Forall_forall in F1. eapply shaped_node_in; eauto.
Qed.

Lemma parts_single : forall l h, parts l = [h] -> exists a b, l = a ++ h :: b /\ trivia_leaf h = false /\ Forall (fun n => trivia_leaf n = true) a /\ Forall (fun n => trivia_leaf n = true) b.
Proof.
  assert (K : forall l, parts l = [] -> Forall (fun n => trivia_leaf n = true) l).
  { induction l as [|n l IH]; intros H; constructor; cbn [parts filter] in H; destruct (trivia_leaf n) eqn:E; auto; discriminate H. }
  induction l as [|n l IH]; intros h H; [discriminate H|]. cbn [parts filter] in H. destruct (trivia_leaf n) eqn:E; cbn [negb] in H.
  - destruct (IH h H) as (a & b & -> & H1 & H2 & H3). exists (n :: a), b. auto.
  - injection H as <- H. exists [], l. auto.
Qed.
Definition good_leaf (t : token) : Prop := isTrivia (t_kind t) = trivia_token t /\ In (t_kind t) LEAF_KINDS.
Lemma leaf_trivia_node : forall n, Forall good_leaf (toks n) -> trivia_leaf n = true -> trivia_node n.
Proof. intros [t| | | | |] F H; try discriminate H. inversion F as [|? ? [F1 _] _]; subst. cbn. rewrite <- F1. exact H. Qed.
Lemma group_not_comment : forall t op, opens op t -> In (t_kind t) LEAF_KINDS -> op <> GOP_Token_Comment.
Proof.
  intros t op (opener & H) K. assert (X : forallb (fun k => match prefix_of k with PP_Group _ op => negb (op =? GOP_Token_Comment) | _ => true end) LEAF_KINDS = true) by (vm_compute; reflexivity).
  pose proof (proj1 (forallb_forall _ _) X _ K) as Y. cbn beta in Y. rewrite H in Y. apply negb_true_iff, Z.eqb_neq in Y. exact Y.
Qed.
Lemma shaped_heads : forall n, shaped keep n -> Forall good_leaf (toks n) -> heads_ok n /\ no_comment_groups n.
Proof.
  intros n H F.
  assert (K : forall m, In m (nodes n) -> node_ok m /\ Forall good_leaf (toks m)).
  { intros m Hm. pose proof (shaped_nodes n H) as Hok. rewrite Forall_forall in Hok. split; auto. destruct (nodes_toks n m Hm) as (a & b & E). rewrite E in F. apply Forall_app in F as [_ F]. apply Forall_app in F as [F _]. exact F. }
  assert (G : forall op ch, In (Op KGroup op ch) (nodes n) -> op <> GOP_Token_Comment).
  { intros op ch Hin. destruct (K _ Hin) as [K1 K2]. inversion K1 as [| | | | | | | | | |op' ch' (t & mid & u & E & Ho & _)| | | |]; subst. eapply group_not_comment; eauto. inversion K2 as [|? ? [_ X] _]; subst. exact X. }
  split.
  - intros ns Hp h m op body Hin. apply preorder_det in Hp. subst ns. destruct (K _ Hin) as [K1 K2].
    assert (X : exists l h0, h = Concrete l /\ parts l = [h0]) by (inversion K1; subst; eauto). destruct X as (l & h0 & -> & P).
    destruct (parts_single l h0 P) as (a & b & -> & P1 & P2 & P3). exists a, h0, b. split; auto.
    cbn [toks] in K2. apply Forall_app in K2 as [K2 _]. change (Forall good_leaf (leaves (a ++ [h0] ++ b))) in K2. rewrite !leaves_app in K2. apply Forall_app in K2 as [K3 K4]. apply Forall_app in K4 as [K4 K5].
    assert (T : forall l, Forall good_leaf (leaves l) -> Forall (fun n => trivia_leaf n = true) l -> Forall trivia_node l).
    { intros l' Hl Ht. induction Ht as [|n' l' Hn Ht IHt]; constructor; cbn [leaves flat_map] in Hl; apply Forall_app in Hl as [Hl1 Hl2]; auto. apply leaf_trivia_node; auto. }
    split; [|split; auto]. intros Hn. destruct h0 as [t| | |k op0 ch0| |]; cbn in Hn; try contradiction.
    + unfold leaves in K4. cbn in K4. inversion K4 as [|? ? [X _] _]; subst. cbn in P1. congruence.
    + destruct k; try contradiction. apply (G op0 ch0); auto. clear - Hin. assert (Y : forall m', In m' (nodes n) -> forall c, In c (children m') -> In c (nodes n)).
      { clear. revert n. apply (cst_ind' (fun n => forall m', In m' (nodes n) -> forall c, In c (children m') -> In c (nodes n))). intros n IH m' Hm c Hc. rewrite nodes_eq in *. right.
        destruct Hm as [<-|Hm]; apply in_flat_map; [exists c; split; auto; apply nodes_self|]. apply in_flat_map in Hm as (x & Hx & Hm). rewrite Forall_forall in IH. exists x. split; eauto. }
      apply (Y _ Hin). rewrite children_call. cbn [head_nodes]. apply in_or_app. left. apply in_or_app. right. left. reflexivity.
  - intros ns Hp ch Hin. apply preorder_det in Hp. subst ns. exact (G _ _ Hin eq_refl).
Qed.

Lemma parse_aggregates : forall o dbg b input l s' n, 0 < o_tab_width o -> parse_cst_raw o dbg keep b input = Ok (l, s') -> In n l ->
  no_comment_groups n /\ (trivia_node n \/ exists n', aggregate_cst n = Ok (Some n')).
Proof.
  intros o dbg b input l s' n Ht E Hn. destruct (parse_row _ _ _ _ _ _ Ht E) as (F1 & _ & F3). rewrite Forall_forall in F1. specialize (F1 n Hn).
  assert (F : Forall good_leaf (toks n)).
  { apply in_split in Hn as (l1 & l2 & ->). change (n :: l2) with ([n] ++ l2) in F3. rewrite !leaves_app in F3. apply Forall_app in F3 as [_ F3]. apply Forall_app in F3 as [F3 _]. unfold leaves in F3. cbn [flat_map] in F3. rewrite app_nil_r in F3. exact F3. }
  destruct (shaped_heads n F1 F) as [H1 H2]. split; auto.
  assert (D : trivia_node n \/ ~ trivia_node n).
  { destruct n as [t| | |k op ch| |]; cbn; auto; [destruct (trivia_token t); auto|]. destruct k; auto. destruct (Z.eq_dec op GOP_Token_Comment); auto. }
  destruct D as [D|D]; auto. right. apply aggregate_defined; auto.
Qed.

(** ** Precedence *)
Lemma node_right_operands : forall k op ch p a rest b, node_ok (Op k op ch) -> k = KBinary \/ k = KInfix -> root_precedence (Op k op ch) = Some p ->
  parts ch = a :: rest -> In b rest -> binds p b.
Proof.
  intros k op ch p a rest b H Hk Hp P Hb. assert (T : forall t, binds p (Tok t)) by (intros t q X; discriminate X).
  destruct Hk as [-> | ->].
  - inversion H as [| | | |op' ch' x t y prec P' He _ _ _ By|ch' x t u P'| | | | | | | | |]; subst; rewrite P' in P; injection P as <- <-.
    + destruct Hb as [<-|[<-|[]]]; auto. cbn [root_precedence] in Hp. rewrite P' in Hp.
      destruct (infix_of (t_kind t)); cbn in He; try contradiction; try discriminate Hp; try (destruct He as [_ ->]; injection Hp as <-; exact By).
      destruct He as [_ ->]. destruct x as [f| | | | |]; try (injection Hp as <-; exact By). destruct (t_kind f =? TK_Fake_ImplicitOne); [discriminate Hp|injection Hp as <-; exact By].
    + destruct Hb as [<-|[<-|[]]]; auto.
  - inversion H as [| | | | | | | |op' prec ch' Ha _| | | | | |]; subst. rewrite P in Ha.
    assert (K : binds prec b).
    { clear - Ha Hb T. remember (a :: rest) as l eqn:El. revert a rest Hb El. induction Ha as [x t y H1 H2 H3 H4|l t y prec' Ha IH H2 H3 H4]; intros a rest Hb El.
      - injection El as <- <-. destruct Hb as [<-|[<-|[]]]; auto. intros q X; discriminate X.
      - destruct l as [|x l]; [exfalso; eapply alternate_nonempty; eauto|]. injection El as -> <-. apply in_app_or in Hb as [Hb|[<-|[<-|[]]]]; auto; [eapply IH; eauto|intros q X; discriminate X]. }
    destruct (alternate_root _ _ _ Ha) as (x & t & r & E & Acc & _). rewrite E in P. injection E as -> ->.
    destruct (root_iprec (Op KInfix op ch) KInfix op ExpectedTilde ch x t r p (or_introl eq_refl) P Hp) as [N Hq].
    destruct Acc as [Acc|Acc]; [contradiction|]. rewrite Acc in Hq. injection Hq as <-. exact K.
Qed.

Lemma parse_nodes : forall o dbg b input l s' n ns m, 0 < o_tab_width o -> parse_cst_raw o dbg keep b input = Ok (l, s') -> In n l -> preorder n ns -> In m ns -> node_ok m.
Proof.
  intros o dbg b input l s' n ns m Ht E Hn Hp Hm. destruct (parse_shape _ _ _ _ _ _ Ht E) as (F & _). rewrite Forall_forall in F. specialize (F _ Hn _ Hp). rewrite Forall_forall in F. auto.
Qed.
Lemma parse_right_operands : forall o dbg first input l s' n ns k op ch p a rest b, 0 < o_tab_width o -> parse_cst_raw o dbg keep first input = Ok (l, s') ->
  In n l -> preorder n ns -> In (Op k op ch) ns -> k = KBinary \/ k = KInfix -> root_precedence (Op k op ch) = Some p ->
  parts ch = a :: rest -> In b rest -> binds p b.
Proof. intros. eapply node_right_operands; eauto. eapply parse_nodes; eauto. Qed.
Lemma parse_prefix_operands : forall o dbg first input l s' n ns op ch t a p, 0 < o_tab_width o -> parse_cst_raw o dbg keep first input = Ok (l, s') ->
  In n l -> preorder n ns -> In (Op KPrefix op ch) ns -> parts ch = [Tok t; a] -> prefix_of (t_kind t) = PP_PrefixOperator p op -> binds p a.
Proof.
  intros o dbg first input l s' n ns op ch t a p Ht E Hn Hp Hm P Ep. pose proof (parse_nodes _ _ _ _ _ _ _ _ _ Ht E Hn Hp Hm) as H.
  inversion H as [|op' ch' t' a' prec P' He _ Ba| | | | | | | | | | | | |]; subst. rewrite P in P'. injection P' as <- <-. rewrite Ep in He. destruct He as [_ ->]. exact Ba.
Qed.

Lemma parse_left_operands : forall o dbg first input l s' n ns m a k p q, 0 < o_tab_width o -> parse_cst_raw o dbg keep first input = Ok (l, s') ->
  In n l -> preorder n ns -> In m ns -> left_operand m a k -> joining_precedence k = Some p -> open_at_end a q ->
  ends_operand q p \/ implicit_exception a k q.
Proof.
  intros o dbg b input l s' n ns m a k p q Ht E Hn Hp Hm.
  destruct (parse_facts o dbg keep b input l s' Ht keep_ok E) as (s0 & us0 & z' & F1 & F2 & F3 & F4 & F5 & F6 & F7 & F8 & F9 & _).
  apply preorder_det in Hp. subst ns. rewrite Forall_forall in F9. apply (shaped_left m). eapply shaped_node_in; [apply F9, Hn|exact Hm].
Qed.

Lemma parse_quiescent : forall o dbg repair b input l s', 0 < o_tab_width o -> (forall op ch, repair op ch <> OutOfFuel) ->
  parse_cst_raw o dbg repair b input = Ok (l, s') -> quiescent s'.
Proof.
  intros o dbg repair b input l s' Ht Hr E. destruct (parse_facts o dbg repair b input l s' Ht Hr E) as (s0 & ts & z' & _ & _ & _ & _ & _ & -> & _). repeat split.
Qed.

(** deciding the hypotheses on concrete inputs *)
Fixpoint no_numeric_escape (bs : list Z) : bool :=
  match bs with
  | a :: (b :: _) as r => negb ((a =? 92) && ((b =? 58) || (b =? 124))) && no_numeric_escape r
  | _ => true
  end.
Lemma no_numeric_escape_ok : forall bs, no_numeric_escape bs = true -> ~ has_surrogate_escape bs.
Proof.
  intros bs H (pre & suf & -> & (ds & r & _ & D & _)). assert (K : exists b r', suf = 92 :: b :: r' /\ (b = 58 \/ b = 124)) by (destruct D as [[-> _]|[-> _]]; eauto).
  clear D. destruct K as (b & r' & -> & Hb). revert H. induction pre as [|x pre IH]; intros H.
  - cbn [app no_numeric_escape] in H. destruct Hb as [-> | ->]; cbn in H; discriminate H.
  - apply IH. cbn [app] in H. destruct (pre ++ 92 :: b :: r') as [|y l] eqn:E; [destruct pre; discriminate E|]. cbn [no_numeric_escape] in H. apply andb_true_iff in H as [_ H]. exact H.
Qed.
Fixpoint tails (l : list Z) : list (list Z) := l :: match l with [] => [] | _ :: r => tails r end.
Lemma in_tails : forall a r, In r (tails (a ++ r)).
Proof. induction a as [|x a IH]; intros r; [destruct r; left; reflexivity|]. right. apply IH. Qed.
Lemma never_lexed_check : forall o input k,
  forallb (fun r => forallb (fun g => match peek_token o g (reader_new o r) with Ok (t, _) => negb (t_kind t =? k) | _ => true end) [true; false]) (tails input) = true -> never_lexed o input k.
Proof.
  intros o input k H a r g t s' -> E. pose proof (proj1 (forallb_forall _ _) H r (in_tails a r)) as K. cbn beta in K.
  pose proof (proj1 (forallb_forall _ _) K g ltac:(destruct g; cbn; auto)) as X. cbn beta in X. rewrite E in X. apply negb_true_iff, Z.eqb_neq in X. exact X.
Qed.

(** the node a path leads to *)
Fixpoint fetch (n : cst) (path : list nat) : option (cst * list token * list token) :=
  match path with
  | [] => Some (n, [], [])
  | i :: p =>
      match nth_error (children n) i with
      | Some m => match fetch m p with
                  | Some (g, aft, ops) => Some (g, aft ++ leaves (skipn (S i) (children n)), ops ++ opener_of n i)
                  | None => None
                  end
      | None => None
      end
  end.
Lemma fetch_below : forall path n g aft ops, fetch n path = Some (g, aft, ops) -> below n g aft ops.
Proof.
  induction path as [|i p IH]; intros n g aft ops H; cbn [fetch] in H.
  - injection H as <- <- <-. constructor.
  - destruct (nth_error (children n) i) as [m|] eqn:E; [|discriminate H]. destruct (fetch m p) as [[[g' a'] o']|] eqn:F; [|discriminate H]. injection H as <- <- <-.
    apply nth_error_split in E as (l1 & l2 & E & L). subst i. apply below_child with (m := m) (a := l1) (c := l2); auto. apply all_tokens_leaves.
    rewrite E. f_equal. clear. induction l1 as [|x l1 IH]; [reflexivity|exact IH].
Qed.
