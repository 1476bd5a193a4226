(** Proofs for C72: the trees of a text can be printed. *)
From Coq Require Import String.
From Coq Require Import ZArith List Bool Lia.
From Verif Require Import Base Source WLChar LongNames ByteDecoder CharDecoder Decode SpecText Iter
  TextProofs Logic LongNamesProofs WlDecode SpecReader ReaderProofs GenTokenKind TokenKind Format FormatProofs Tokenizer TokLogic
  TokenizerProofs SpecTokenizer TokenLoop TokSim TokAgree TokResults GenPrec GenOps GenParselets Parselets Utils Cst SpecCst CstProofs Parser SpecParser SpecParse
  ParserLogic ParserRules ParserProofs ParserResults ParserTheorems ReparseProofs Ast Abstract SpecAbstract AbstractProofs AbstractShape BoxPosition Link LinkTotal SpecLink LinkRead LinkPlaces
  FmtExpr SpecFmt FmtProofs.
Import ListNotations.
Local Open Scope string_scope.
Local Open Scope list_scope.
Local Open Scope Z_scope.

Definition can (r : res (list Z)) : Prop := exists x, r = Ok x.
Lemma can_cat : forall l, Forall can l -> can (cat l).
Proof. intros l F. induction F as [|a l [x ->] F [y IH]]; [exists []; reflexivity|]. cbn [cat rbind]. rewrite IH. eexists. reflexivity. Qed.
Lemma can_out : forall s, can (out s). Proof. intros s. eexists. reflexivity. Qed.
Lemma can_ok : forall x, can (Ok x). Proof. intros x. eexists. reflexivity. Qed.
Lemma can_seq : forall l, Forall can l -> can (fmt_seq l).
Proof.
  intros l F. apply can_cat. repeat (constructor; [first [apply can_out|apply can_cat]|]); [|constructor].
  apply Forall_forall. intros a H. apply in_map_iff in H as (b & <- & H). apply can_cat. rewrite Forall_forall in F. constructor; [auto|]. constructor; [apply can_out|constructor].
Qed.
Definition lined (l : loc) : Prop := match l with LineCol _ _ => True | CharIdx _ => False end.
Lemma lined_up : forall a b, lined a -> loc_leb a b = Some true -> lined b.
Proof. intros [x y|x] [z w|z] H E; cbn in *; try contradiction; try discriminate E. exact I. Qed.
Lemma can_source : forall s, lined (sp_start s) -> lined (sp_end s) -> can (fmt_source s).
Proof. intros [[a b|a] [c d|c]] H H'; cbn in H, H'; try contradiction. eexists. reflexivity. Qed.
Lemma can_op : forall head s ch src x, s <> None -> can ch -> src = Ok x -> can (fmt_source x) -> can (fmt_op head s ch src).
Proof.
  intros head [n|] ch src x N C -> H; [|congruence]. apply can_cat. repeat (constructor; [first [apply can_out|exact C|exact H]|]). constructor.
Qed.

Lemma can_tree : forall n a e, lined a -> solid n -> Forall named (nodes n) -> Forall clean_token (toks n) -> spaced a (toks n) e -> can (fmt_node n).
Proof.
  apply (cst_ind' (fun n => forall a e, lined a -> solid n -> Forall named (nodes n) -> Forall clean_token (toks n) -> spaced a (toks n) e -> can (fmt_node n))).
  intros n IH a e Ha S N K SP.
  pose proof (get_source_spaced n a e S SP) as (s & Es & _ & L1 & L2 & L3).
  assert (Ts : can (fmt_source s)) by (apply can_source; [exact (lined_up _ _ Ha L1)|exact (lined_up _ _ (lined_up _ _ Ha L1) L2)]).
  assert (Q : forall l, incl l (children n) -> Forall solid l -> Forall can (map fmt_node l)).
  { intros l Hl Sl. rewrite Forall_forall. intros w Hw. apply in_map_iff in Hw as (ch & <- & Hch).
    assert (Hc : In ch (nodes n)) by (apply child_nodes; auto).
    destruct (nodes_toks n ch Hc) as (u & v & Eu). pose proof SP as SP'. rewrite Eu in SP'. apply spaced_app in SP' as (b1 & S1 & SP'). apply spaced_app in SP' as (b2 & S2 & _).
    rewrite Forall_forall in IH. apply (IH ch (Hl _ Hch) b1 b2).
    - exact (lined_up _ _ Ha (spaced_le _ _ _ S1)).
    - rewrite Forall_forall in Sl. auto.
    - rewrite Forall_forall in *. intros m Hm. apply N. eapply nodes_trans; eauto.
    - eapply leaf_down; eauto.
    - exact S2. }
  assert (N0 : named n) by (rewrite Forall_forall in N; apply N, nodes_self).
  inversion S as [t|h m op body N1 N2 S1 S2|er ch N1 S1|k op ch N1 S1]; subst; cbn [fmt_node].
  - cbn in Es. injection Es as <-. rewrite toks_tok in K || cbn [toks] in K. inversion K as [|? ? [[_ K1] K2] _]; subst. unfold fmt_token. rewrite K2.
    pose proof (total_kind _ K1) as TK. unfold put_kind in TK. destruct (tk_to_symbol (t_kind t)) as [sy|]; [|destruct (TK []) as (? & ? & X); discriminate X].
    apply can_cat. repeat (constructor; [first [apply can_out|exact Ts|apply can_cat; repeat (constructor; [first [apply can_out|apply can_ok]|]); constructor]|]). constructor.
  - rewrite children_call in *. destruct N0 as [s0 N0].
    assert (B : exists x, sources_between (map get_source body) = Ok x /\ can (fmt_source x)).
    { rewrite toks_eq in SP by discriminate. rewrite children_call, flat_map_app in SP. apply spaced_app in SP as (b & SP1 & SP2).
      pose proof (get_source_spaced (SynErr ExpectedSymbol body) b e) as G. destruct G as (x & E & _ & M1 & M2 & _).
      - constructor; auto.
      - rewrite toks_eq by discriminate. exact SP2.
      - exists x. split; [exact E|]. pose proof (lined_up _ _ Ha (spaced_le _ _ _ SP1)) as Lb. apply can_source; [exact (lined_up _ _ Lb M1)|exact (lined_up _ _ (lined_up _ _ Lb M1) M2)]. }
    destruct B as (bs & Eb & Tb). rewrite Es. cbn [rbind].
    apply can_cat. constructor; [apply can_out|]. constructor; [apply can_out|]. constructor.
    { destruct h as [l|x]; cbn [head_nodes] in *; [apply can_seq; apply Q; [apply incl_appl, incl_refl|exact S1]|].
      assert (X : Forall can (map fmt_node [x])) by (apply Q; [apply incl_appl, incl_refl|exact S1]). inversion X; assumption. }
    constructor; [apply can_out|]. constructor.
    { eapply can_op; [rewrite N0; discriminate|apply can_seq; apply Q; [apply incl_appr, incl_refl|exact S2]|exact Eb|exact Tb]. }
    repeat (constructor; [first [apply can_out|exact Ts]|]). constructor.
  - eapply can_op; [discriminate|apply can_seq; apply Q; [apply incl_refl|exact S1]|exact Es|exact Ts].
  - destruct N0 as [s0 N0]. eapply can_op; [rewrite N0; discriminate|apply can_seq; apply Q; [apply incl_refl|exact S1]|exact Es|exact Ts].
Qed.

(** ** The trees of a text *)
Lemma starts_lined : forall o input s0, o_conv o = ConvLineColumn -> Inv o (reader_new o input) -> R o (reader_new o input) s0 -> lined (ploc (cur s0)).
Proof. intros o input s0 C HI HR. refine (lined_up _ _ _ (R_leb o _ _ HI HR)). unfold reader_new, newSourceLocation. cbn [cur ploc]. rewrite C. exact I. Qed.
Lemma parse_roomy : forall o dbg b input l s', 0 < o_tab_width o -> parse_cst_raw o dbg keep b input = Ok (l, s') -> Forall (roomy o (Z.of_nat (length input))) (leaves l).
Proof.
  intros o dbg b input l s' Ht E. destruct (parse_facts o dbg keep b input l s' Ht keep_ok E) as (s0 & us & z' & F1 & F2 & F3 & F4 & F5 & F6 & F7 & F8 & F9 & F10 & F11 & F12 & _).
  destruct F12 as (g & Hm & F12). apply mended_keep in Hm. subst g.
  assert (P0 : room o (Z.of_nat (length input)) (here (reader_new o input))).
  { unfold room, here, reader_new, newSourceLocation. cbn [cur ploc rest fst snd]. destruct (o_conv o) eqn:C; cbn [locok]; rewrite C; repeat split; lia. }
  exact (row_room o _ Ht _ _ _ F12 (room_R o _ Ht _ _ F5 P0)).
Qed.
Lemma locok_counted : forall o l, locok o l -> counted l. Proof. intros o [a b|a] [_ H]; exact H. Qed.
Lemma parse_counted : forall o dbg b input l s' n, 0 < o_tab_width o -> parse_cst_raw o dbg keep b input = Ok (l, s') -> In n l -> Forall counted_token (toks n).
Proof.
  intros o dbg b input l s' n Ht E Hn. pose proof (parse_roomy _ _ _ _ _ _ Ht E) as F. rewrite Forall_forall in *. intros t Hin.
  destruct (F t) as (p & q & (P & _) & (Q & _) & Es & _); [unfold leaves; apply in_flat_map; eauto|]. unfold counted_token. rewrite Es. split; eapply locok_counted; eassumption.
Qed.
Lemma parse_prints : forall o dbg b input l s', 0 < o_tab_width o -> o_conv o = ConvLineColumn -> well_formed_no_bom input -> parse_cst_raw o dbg keep b input = Ok (l, s') -> can (fmt_nodes l).
Proof.
  intros o dbg b input l s' Ht C W E. apply can_seq. rewrite Forall_forall. intros w Hw. apply in_map_iff in Hw as (n & <- & Hn).
  destruct (clean_parse o dbg b input l s' Ht W E n Hn) as (S & K & a & e & Ha & SP).
  assert (L : lined (sp_start (t_src (hd (mktok 0 [] [] (mkspan (LineCol 1 1) (LineCol 1 1))) (toks n))))).
  { destruct (toks n) as [|t r] eqn:Et; [exact I|]. cbn [hd]. pose proof (parse_roomy _ _ _ _ _ _ Ht E) as F. rewrite Forall_forall in F.
    destruct (F t) as (p & q & (P & _) & _ & Es & _); [unfold leaves; apply in_flat_map; exists n; rewrite Et; split; [exact Hn|left; reflexivity]|]. rewrite Es. cbn [sp_start]. destruct (snd p); [exact I|]. destruct P as [P _]. congruence. }
  destruct (toks n) as [|t r] eqn:Et.
  - exfalso. apply shaped_solid in S. destruct (get_source_spaced n a e S ltac:(rewrite Et; exact SP)) as (s & _ & H & _). unfold AbstractShape.ends_at, ends_between in H. rewrite Et in H. destruct H as (? & ? & ? & H & _). discriminate H.
  - apply (can_tree n (sp_start (t_src t)) e L).
    + apply shaped_solid. exact S.
    + rewrite Forall_forall. intros m Hm. pose proof (shaped_nodes n S) as N. rewrite Forall_forall in N. apply ok_named; auto. rewrite <- Et in K. eapply leaf_down; eauto.
    + rewrite Et. exact K.
    + rewrite Et. inversion SP; subst. constructor; auto. destruct (sp_start (t_src t)); cbn; rewrite ?Z.ltb_irrefl, ?Z.eqb_refl, ?Z.leb_refl; reflexivity.
Qed.

(** ** What printing asks for *)
Lemma cat_all : forall l x, cat l = Ok x -> Forall can l.
Proof. induction l as [|a l IH]; intros x E; [constructor|]. apply cat_cons in E as (u & v & -> & E & _). constructor; [apply can_ok|eauto]. Qed.
Definition printable (t : token) : Prop := utf8_valid (t_text t) = true /\ lined (sp_start (t_src t)) /\ lined (sp_end (t_src t)).
Lemma source_lined : forall s x, fmt_source s = Ok x -> lined (sp_start s) /\ lined (sp_end s).
Proof. intros [[a b|a] [c d|c]] x E; try discriminate E. split; exact I. Qed.
Lemma seq_all : forall l x, fmt_seq l = Ok x -> Forall can l.
Proof.
  intros l x E. apply cat_all in E. inversion E as [|? ? _ E1]; subst. inversion E1 as [|? ? _ E2]; subst. inversion E2 as [|? ? [y E3] _]; subst. apply cat_all in E3.
  rewrite Forall_forall in *. intros a Ha. assert (E4 : can (cat [a; out ", "])) by (apply E3; apply in_map_iff; exists a; split; [reflexivity|exact Ha]). destruct E4 as [z E4]. apply cat_cons in E4 as (u & v & -> & _ & _). apply can_ok.
Qed.
Lemma op_all : forall head s ch src x, fmt_op head s ch src = Ok x -> can ch.
Proof. intros head s ch src x E. apply cat_all in E. repeat match goal with F : Forall can (_ :: _) |- _ => inversion F; clear F; subst end. assumption. Qed.
Lemma tree_printable : forall n x, fmt_node n = Ok x -> Forall printable (toks n).
Proof.
  apply (cst_ind' (fun n => forall x, fmt_node n = Ok x -> Forall printable (toks n))). intros n IH x E.
  assert (Q : forall l, incl l (children n) -> Forall can (map fmt_node l) -> Forall printable (flat_map toks l)).
  { intros l Hl F. rewrite Forall_forall in *. intros t Hin. apply in_flat_map in Hin as (m & Hm & Hin). destruct (F (fmt_node m) (in_map _ _ _ Hm)) as [y Ey].
    pose proof (IH m (Hl _ Hm) y Ey) as P. rewrite Forall_forall in P. auto. }
  destruct n as [t|h m op body|e ch|k op ch|b ch src|a b src]; try discriminate E; cbn [fmt_node] in E.
  - cbn [toks]. constructor; [|constructor]. unfold fmt_token in E. apply cat_all in E. repeat match goal with F : Forall can (_ :: _) |- _ => inversion F; clear F; subst end.
    destruct (utf8_valid (t_text t)) eqn:U; [|match goal with C : can Panic |- _ => destruct C as [? C]; discriminate C end].
    match goal with C : can (fmt_source _) |- _ => destruct C as [y C]; apply source_lined in C end. split; [exact U|assumption].
  - rewrite toks_eq by discriminate. rewrite children_call in *. rewrite flat_map_app. apply cat_all in E. repeat match goal with F : Forall can (_ :: _) |- _ => inversion F; clear F; subst end.
    apply Forall_app. split; [|match goal with C : can (fmt_op _ _ _ _) |- _ => destruct C as [y C]; apply op_all in C as [z C]; apply seq_all in C end; apply Q; [apply incl_appr, incl_refl|assumption]].
    destruct h as [l|y]; cbn [head_nodes] in *; (apply Q; [apply incl_appl, incl_refl|]).
    + match goal with C : can (fmt_seq (map fmt_node l)) |- _ => destruct C as [z C]; exact (seq_all _ _ C) end.
    + cbn [map]. constructor; [assumption|constructor].
  - rewrite toks_eq by discriminate. apply op_all in E as [y E]. apply Q; [apply incl_refl|exact (seq_all _ _ E)].
  - rewrite toks_eq by discriminate. apply op_all in E as [y E]. apply Q; [apply incl_refl|exact (seq_all _ _ E)].
Qed.
Lemma nodes_printable : forall l x, fmt_nodes l = Ok x -> Forall printable (leaves l).
Proof.
  intros l x E. apply seq_all in E. rewrite Forall_forall in *. intros t Hin. unfold leaves in Hin. apply in_flat_map in Hin as (n & Hn & Hin).
  destruct (E (fmt_node n) (in_map _ _ _ Hn)) as [y Ey]. pose proof (tree_printable n y Ey) as P. rewrite Forall_forall in P. auto.
Qed.

Lemma nodes_unique : forall l l' x, fmt_nodes l = Ok x -> fmt_nodes l' = Ok x -> Forall tidy l -> Forall tidy l' -> map shown l = map shown l'.
Proof.
  intros l l' x E E' T T'. apply (seq_ends l ltac:(apply Forall_forall; intros n _; apply trees_unique) l' x x [] [] T T' E E' eq_refl).
Qed.
Lemma texts_shown : forall n, map t_text (toks (shown n)) = map t_text (toks n).
Proof.
  apply cst_ind'. intros n IH. assert (Q : forall l, Forall (fun n => map t_text (toks (shown n)) = map t_text (toks n)) l -> map t_text (flat_map toks (map shown l)) = map t_text (flat_map toks l)).
  { intros l F. induction F as [|m l Hm F IHF]; [reflexivity|]. cbn [map flat_map]. rewrite !map_app, Hm, IHF. reflexivity. }
  destruct n as [t|[l|y] m op body|e ch|k op ch|b ch src|a b src]; try reflexivity; cbn [children] in IH; cbn [shown]; rewrite !toks_eq by discriminate; cbn [children].
  - apply Forall_app in IH as [I1 I2]. rewrite !flat_map_app, !map_app, (Q _ I1), (Q _ I2). reflexivity.
  - apply Forall_cons_iff in IH as [I1 I2]. cbn [flat_map]. rewrite !map_app, I1, (Q _ I2). reflexivity.
  - apply Q, IH.
  - apply Q, IH.
  - apply Q, IH.
Qed.
Lemma texts_same : forall l l', map shown l = map shown l' -> map t_text (leaves l) = map t_text (leaves l').
Proof.
  assert (Q : forall l, map t_text (leaves (map shown l)) = map t_text (leaves l)).
  { unfold leaves. induction l as [|n l IH]; [reflexivity|]. cbn [map flat_map]. rewrite !map_app, texts_shown, IH. reflexivity. }
  intros l l' E. rewrite <- (Q l), <- (Q l'), E. reflexivity.
Qed.
