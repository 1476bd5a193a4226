(** The trees abstraction is given: what is left of the trees of the parser when trivia are
    removed. *)
From Coq Require Import ZArith List Bool Lia.
From Verif Require Import Base Source WLChar LongNames ByteDecoder CharDecoder Decode SpecText Iter
  TextProofs Logic LongNamesProofs WlDecode SpecReader ReaderProofs GenTokenKind TokenKind Format FormatProofs Tokenizer TokLogic
  TokenizerProofs SpecTokenizer TokenLoop TokSim TokAgree TokResults GenPrec GenOps GenParselets Parselets Cst SpecCst CstProofs Parser SpecParser SpecParse
  ParserLogic ParserRules ParserProofs ParserResults ParserTheorems ReparseProofs Ast Abstract SpecAbstract AbstractProofs.
Import ListNotations.
Local Open Scope Z_scope.

(** ** Text *)

Lemma row_utf8 : forall o p l p', row o p l p' -> well_formed_no_bom (fst p) -> Forall (fun t => utf8_valid (t_text t) = true) l.
Proof.
  intros o p l p' H. induction H as [p|p t l p' Ht H IH]; intros W; constructor.
  - destruct Ht as [(_ & _ & E & _)|(q & u & Hq & (z & z' & I & <- & A) & N & Hl)]; [rewrite E; reflexivity|].
    pose proof (ask_ok o q z I Hq) as K. unfold wpr in K. rewrite A in K. destruct K as (_ & _ & (_ & _ & ((cs & M & _) & _) & _ & A5 & _ & _)). cbn [cur] in M.
    cbn [here fst] in W. destruct (moves_clean _ _ _ _ _ _ M W) as (_ & w & Ew & Ww). rewrite A5 in Ew. apply app_inv_tail in Ew.
    assert (E : t_text t = w) by (destruct Hl as [->|[[_ ->]|[_ ->]]]; exact Ew). rewrite E. apply utf8_valid_iff. apply clean_well_formed. exact Ww.
  - apply IH. destruct Ht as [Hi|(q & u & Hq & (z & z' & I & <- & A) & N & Hl)]; [rewrite (past_inserted _ _ Hi); exact W|].
    pose proof (ask_ok o q z I Hq) as K. unfold wpr in K. rewrite A in K. destruct K as (_ & _ & (_ & _ & ((cs & M & _) & _) & _ & A5 & _ & _)). cbn [cur] in M.
    cbn [here fst] in W. destruct (moves_clean _ _ _ _ _ _ M W) as (W2 & _). rewrite (past_relabelled _ _ Hl N). exact W2.
Qed.

(** ** Tokens in order *)

Inductive spaced : loc -> list token -> loc -> Prop :=
| spaced_nil : forall l e, loc_leb l e = Some true -> spaced l [] e
| spaced_cons : forall l t r e, loc_leb l (sp_start (t_src t)) = Some true -> loc_leb (sp_start (t_src t)) (sp_end (t_src t)) = Some true ->
    spaced (sp_end (t_src t)) r e -> spaced l (t :: r) e.
Lemma spaced_le : forall l ts e, spaced l ts e -> loc_leb l e = Some true.
Proof. intros l ts e H. induction H as [l e H|l t r e H1 H2 _ IH]; auto. eapply loc_leb_trans; [exact H1|]. eapply loc_leb_trans; eauto. Qed.
Lemma spaced_weaken : forall l l' ts e, loc_leb l' l = Some true -> spaced l ts e -> spaced l' ts e.
Proof. intros l l' ts e H1 H2. destruct H2 as [l e H|l t r e H2 H3 H4]; constructor; auto; eapply loc_leb_trans; eauto. Qed.
Lemma row_spaced : forall l ts e, in_a_row l ts e -> spaced l ts e.
Proof. intros l ts e H. induction H as [l|l t r e E L _ IH]; constructor; auto; try apply loc_leb_refl; rewrite E; auto. apply loc_leb_refl. Qed.
Lemma spaced_filter : forall f l ts e, spaced l ts e -> spaced l (filter f ts) e.
Proof.
  intros f l ts e H. induction H as [l e H|l t r e H1 H2 H3 IH]; cbn; [constructor; auto|]. destruct (f t); [constructor; auto|].
  eapply spaced_weaken; [|exact IH]. eapply loc_leb_trans; eauto.
Qed.
Lemma spaced_app : forall l a b e, spaced l (a ++ b) e -> exists m, spaced l a m /\ spaced m b e.
Proof.
  intros l a. revert l. induction a as [|t a IH]; intros l b e H; [exists l; split; [constructor; apply loc_leb_refl|exact H]|].
  cbn in H. inversion H as [|? ? ? ? H1 H2 H3]; subst. destruct (IH _ _ _ H3) as (m & H4 & H5). exists m. split; auto. constructor; auto.
Qed.

(** the source of a node runs from its first token to its last *)
Definition ends_at (n : cst) (s : span) : Prop :=
  exists t r u, toks n = t :: r /\ last (toks n) t = u /\ s = mkspan (sp_start (t_src t)) (sp_end (t_src u)).
Definition src_ok (n : cst) : Prop := forall a e, solid n -> spaced a (toks n) e ->
  exists s, get_source n = Ok s /\ ends_at n s /\ loc_leb a (sp_start s) = Some true /\ loc_leb (sp_start s) (sp_end s) = Some true /\ loc_leb (sp_end s) e = Some true.

Lemma last_app_nonempty : forall A (a b : list A) d d', b <> [] -> last (a ++ b) d = last b d'.
Proof.
  intros A a b d d' H. induction a as [|x a IH]; cbn.
  - destruct b as [|y b]; [congruence|]. clear. revert y. induction b as [|z b IH]; intros y; auto. exact (IH z).
  - destruct (a ++ b) eqn:E; [apply app_eq_nil in E as [_ ->]; congruence|]. rewrite <- E in *. exact IH.
Qed.
Definition ends_between (ts : list token) (s : span) : Prop :=
  exists t r u, ts = t :: r /\ last ts t = u /\ s = mkspan (sp_start (t_src t)) (sp_end (t_src u)).
Lemma seq_sources : forall l, Forall src_ok l -> Forall solid l -> l <> [] -> forall a e, spaced a (flat_map toks l) e ->
  exists s1 s2, hd Panic (map get_source l) = Ok s1 /\ last (map get_source l) Panic = Ok s2 /\ loc_leb a (sp_start s1) = Some true /\ loc_leb (sp_start s1) (sp_start s2) = Some true /\
    loc_leb (sp_start s1) (sp_end s1) = Some true /\ loc_leb (sp_end s1) e = Some true /\
    loc_leb (sp_start s2) (sp_end s2) = Some true /\ loc_leb (sp_end s2) e = Some true /\ ends_between (flat_map toks l) (mkspan (sp_start s1) (sp_end s2)).
Proof.
  intros l G. induction G as [|n l Gn _ IH]; intros S NE a e H; [congruence|]. apply Forall_cons_iff in S as [Sn Sl]. cbn in H. apply spaced_app in H as (m & H1 & H2).
  destruct (Gn a m Sn H1) as (s1 & E1 & (t & r & u & Et & Eu & Es) & L1 & L2 & L3). destruct l as [|n2 l].
  - exists s1, s1. cbn in H2 |- *. rewrite E1. pose proof (spaced_le _ _ _ H2). repeat (split; [first [assumption|reflexivity|apply loc_leb_refl|eapply loc_leb_trans; eauto]|]).
    exists t, r, u. rewrite app_nil_r. repeat split; auto. rewrite Es. reflexivity.
  - destruct (IH Sl ltac:(discriminate) m e H2) as (s2 & s3 & F1 & F2 & F3 & F4 & F5 & F6 & F7 & F8 & (t' & r' & u' & G1 & G2 & G3)). exists s1, s3.
    cbn [map hd]. split; [exact E1|]. split; [exact F2|]. split; auto.
    assert (M : loc_leb (sp_end s1) (sp_start s3) = Some true) by (eapply loc_leb_trans; [exact L3|]; eapply loc_leb_trans; eauto).
    split; [eapply loc_leb_trans; eauto|]. split; auto. split; [eapply loc_leb_trans; [exact L3|]; eapply spaced_le; eauto|]. split; auto. split; auto.
    exists t, (r ++ flat_map toks (n2 :: l)), u'. change (flat_map toks (n :: n2 :: l)) with (toks n ++ flat_map toks (n2 :: l)). rewrite Et at 1. split; [reflexivity|]. split.
    + rewrite (last_app_nonempty _ _ _ t t') by (rewrite G1; discriminate). exact G2.
    + injection G3 as _ G3. rewrite Es. cbn. congruence.
Qed.
Lemma between_spaced : forall x y, loc_leb (sp_start x) (sp_start y) = Some true -> loc_leb (sp_start y) (sp_end y) = Some true ->
  span_between x y = Ok (mkspan (sp_start x) (sp_end y)).
Proof. intros x y H1 H2. eapply between_row; eauto. Qed.
Lemma get_source_spaced : forall n, src_ok n.
Proof.
  apply cst_ind'. intros n IH a e S H.
  assert (Q : forall l, l <> [] -> Forall src_ok l -> Forall solid l -> forall a e, spaced a (flat_map toks l) e ->
     exists s, sources_between (map get_source l) = Ok s /\ ends_between (flat_map toks l) s /\ loc_leb a (sp_start s) = Some true /\ loc_leb (sp_start s) (sp_end s) = Some true /\ loc_leb (sp_end s) e = Some true).
  { intros l N G S' a' e' H'. destruct (seq_sources l G S' N a' e' H') as (s1 & s2 & F1 & F2 & F3 & F4 & F5 & F6 & F7 & F8 & F9).
    exists (mkspan (sp_start s1) (sp_end s2)). split; [|split; [exact F9|split; [auto|split; [cbn; eapply loc_leb_trans; [exact F4|exact F7]|auto]]]].
    unfold sources_between. destruct l as [|n0 l]; [congruence|]. cbn [map hd] in *. rewrite F2, F1. cbn [rbind]. apply between_spaced; auto. }
  inversion S as [t|h m op body N1 N2 S1 S2|er ch N1 S1|k op ch N1 S1]; subst.
  - exists (t_src t). cbn in H. inversion H as [|? ? ? ? H1 H2 H3]; subst. cbn. split; auto. split; [exists t, [], t; repeat split; destruct (t_src t); reflexivity|]. split; auto. split; auto. eapply spaced_le; eauto.
  - rewrite toks_eq in H by discriminate. rewrite children_call in *. apply Forall_app in IH as [IH1 IH2]. rewrite flat_map_app in H. apply spaced_app in H as (b & H1 & H2).
    destruct (seq_sources _ IH1 S1 N1 a b H1) as (s1 & s2 & F1 & F2 & F3 & F4 & F5 & F6 & F7 & F8 & (t & r & u & G1 & G2 & G3)).
    destruct (Q _ N2 IH2 S2 b e H2) as (s & K1 & (t' & r' & u' & G4 & G5 & G6) & K3 & K4 & K5).
    exists (mkspan (sp_start s1) (sp_end s)). split.
    + cbn [get_source]. replace (match h with Concrete l => match map get_source l with [] => Panic | a :: _ => a end | Aggregate m => get_source m end) with (@Ok span s1).
      * cbn [rbind]. rewrite K1. cbn [rbind]. apply between_spaced; auto. eapply loc_leb_trans; [exact F5|]. eapply loc_leb_trans; eauto.
      * destruct h as [[|n l]|x]; cbn in *; [congruence|symmetry; exact F1|symmetry; exact F1].
    + split; [|split; [exact F3|split; [cbn; eapply loc_leb_trans; [exact F5|]; eapply loc_leb_trans; [exact F6|]; eapply loc_leb_trans; eauto|exact K5]]].
      unfold ends_at. rewrite toks_eq by discriminate. rewrite children_call, flat_map_app. exists t, (r ++ flat_map toks body), u'. rewrite G1 at 1. split; [reflexivity|]. split.
      * rewrite (last_app_nonempty _ _ _ t t') by (rewrite G4; discriminate). exact G5.
      * injection G3 as G3 _. rewrite G6. cbn. congruence.
  - rewrite toks_eq in H by discriminate. destruct (Q _ N1 IH S1 a e H) as (s & K1 & K2 & K3). exists s. split; [exact K1|]. split; [|exact K3]. unfold ends_at. rewrite toks_eq by discriminate. exact K2.
  - rewrite toks_eq in H by discriminate. destruct (Q _ N1 IH S1 a e H) as (s & K1 & K2 & K3). exists s. split; [exact K1|]. split; [|exact K3]. unfold ends_at. rewrite toks_eq by discriminate. exact K2.
Qed.

(** ** Shapes *)

(** the separators of an infix node *)
Inductive joined (op : Z) : list cst -> Prop :=
| joined_one : forall a t b prec, infix_entry (infix_of (t_kind t)) op prec -> joined op [a; Tok t; b]
| joined_more : forall a t l prec, infix_entry (infix_of (t_kind t)) op prec -> joined op l -> joined op (a :: Tok t :: l).
Lemma joined_snoc : forall op l t b prec, joined op l -> infix_entry (infix_of (t_kind t)) op prec -> joined op (l ++ [Tok t; b]).
Proof. intros op l t b prec H E. induction H as [a u c p Hp|a u l p Hp H IH]; cbn; econstructor; eauto. econstructor; eauto. Qed.

Inductive fits : cst -> Prop :=
| fits_token : forall t, fits (Tok t)
| fits_prefix : forall op t a prec, prefix_entry (prefix_of (t_kind t)) op prec -> fits (Op KPrefix op [Tok t; a])
| fits_prefix_binary : forall op t a b op2, prefix_of (t_kind t) = PP_Integral op op2 -> fits (Op KPrefixBinary op [Tok t; a; b])
| fits_postfix : forall op a t prec, infix_of (t_kind t) = IP_PostfixOperator prec op -> fits (Op KPostfix op [a; Tok t])
| fits_binary : forall op a t b prec, binary_entry (infix_of (t_kind t)) op prec -> fits (Op KBinary op [a; Tok t; b])
| fits_unset : forall a t u, t_kind t = TK_Equal -> t_kind u = TK_Dot -> fits (Op KBinary BOP_Unset [a; Tok t; Tok u])
| fits_ternary : forall op a t b u c p1 p2, ternary_entry op (t_kind t) (t_kind u) p1 p2 -> fits (Op KTernary op [a; Tok t; b; Tok u; c])
| fits_tag_unset : forall a t b u v, t_kind t = TK_SlashColon -> t_kind u = TK_Equal -> t_kind v = TK_Dot -> fits (Op KTernary TOP_TagUnset [a; Tok t; b; Tok u; Tok v])
| fits_infix : forall op ch, joined op ch -> fits (Op KInfix op ch)
| fits_compound : forall op ch, compound_ok op ch -> fits (Op KCompound op ch)
| fits_group : forall op t mid u, opens op t -> closes t u -> fits (Op KGroup op (Tok t :: mid ++ [Tok u]))
| fits_missing : forall op t mid, opens op t -> fits (Op KGroupMissingCloser op (Tok t :: mid))
| fits_call : forall h gop op t mid u, try_to_call_operator gop = Ok op -> opens gop t -> closes t u -> fits (Call (Aggregate h) false op (Tok t :: mid ++ [Tok u]))
| fits_call_missing : forall h gop op t mid, try_to_call_operator gop = Ok op -> opens gop t -> fits (Call (Aggregate h) true op (Tok t :: mid))
| fits_error : forall e a t b, t_kind t = match e with ExpectedSymbol => TK_Colon | ExpectedSet => TK_SlashColon | ExpectedTilde => TK_Tilde end -> fits (SynErr e [a; Tok t; b]).

Definition agg_to (n n' : cst) : Prop := aggregate_cst n = Ok (Some n').
Lemma agg_tok : forall t n', agg_to (Tok t) n' -> n' = Tok t.
Proof. intros t n' H. unfold agg_to in H. cbn in H. destruct (agg_removed_kind (t_kind t)); [discriminate H|]. injection H as <-. reflexivity. Qed.

(** the trivia among the children go, the others stay *)
Lemma agg_parts : forall l l', filter_map_res aggregate_cst l = Ok l' -> Forall (shaped keep) l -> Forall good_leaf (leaves l) -> Forall2 agg_to (parts l) l'.
Proof.
  intros l. induction l as [|n l IH]; intros l' E S G; cbn -[rbind] in E; [injection E as <-; constructor|].
  apply rbind_Ok in E as (x & Ex & E). apply rbind_Ok in E as (bs & Eb & E). apply Forall_cons_iff in S as [Sn S]. change (n :: l) with ([n] ++ l) in G. rewrite leaves_app in G. apply Forall_app in G as [Gn G].
  unfold leaves in Gn. cbn [flat_map] in Gn. rewrite app_nil_r in Gn. specialize (IH bs Eb S G). cbn [parts filter]. destruct x as [n'|]; injection E as <-.
  - destruct (trivia_leaf n) eqn:Et; cbn [negb]; [|constructor; auto]. exfalso. apply (leaf_trivia_node n Gn) in Et. pose proof (aggregate_trims _ _ Ex) as T. exact (trimmed_not_trivia _ _ T Et).
  - apply aggregate_drops in Ex. destruct n as [t|h m op body|e ch|k op ch|b ch src|a b src]; cbn in Ex; try contradiction.
    + cbn [trivia_leaf]. inversion Gn as [|? ? [X _] _]; subst. rewrite X, Ex. exact IH.
    + destruct k; try contradiction. exfalso. apply shaped_keep in Sn as [Sn _]. inversion Sn as [| | | | | | | | | |op' ch' (t & mid & u & E & Ho & _)| | | |]; subst.
      eapply group_not_comment; eauto. inversion Gn as [|? ? [_ X] _]; subst; auto.
Qed.
Lemma Forall2_one : forall A B (R : A -> B -> Prop) a l, Forall2 R [a] l -> exists b, l = [b] /\ R a b.
Proof. intros A B R a l H. inversion H as [|? b ? l' H1 H2]; subst. inversion H2; subst. eauto. Qed.

Lemma solid_opener : forall op t, opens op t -> good_leaf t -> trivia_leaf (Tok t) = false.
Proof.
  intros op t (opener & H) [_ K]. assert (X : forallb (fun k => match prefix_of k with PP_Group _ _ => negb (isTrivia k) | _ => true end) LEAF_KINDS = true) by (vm_compute; reflexivity).
  pose proof (proj1 (forallb_forall _ _) X _ K) as Y. cbn beta in Y. rewrite H in Y. cbn. apply negb_true_iff. exact Y.
Qed.
Lemma solid_closer : forall t u, closes t u -> trivia_leaf (Tok u) = false.
Proof. intros t u H. apply closes_matching in H. cbn. eapply matching_solid; eauto. Qed.

Lemma alternate_joined : forall op prec l l', alternate op prec l -> Forall2 agg_to l l' -> joined op l'.
Proof.
  intros op prec l l' H. revert l'. induction H as [a t b H1 H2 H3 H4|l t b prec' H IH H2 H3 H4]; intros l' F.
  - inversion F as [|? a' ? l1 F1 F2]; subst. inversion F2 as [|? t' ? l2 F3 F4]; subst. inversion F4 as [|? b' ? l3 F5 F6]; subst. inversion F6; subst. apply agg_tok in F3. subst t'. econstructor; eauto.
  - apply Forall2_app_inv_l in F as (x & y & F1 & F2 & ->). inversion F2 as [|? t' ? l2 F3 F4]; subst. inversion F4 as [|? b' ? l3 F5 F6]; subst. inversion F6; subst. apply agg_tok in F3. subst t'.
    eapply joined_snoc; eauto.
Qed.

Lemma leaf_part : forall ch x l, parts ch = x :: l -> In x ch.
Proof. intros ch x l H. assert (K : In x (parts ch)) by (rewrite H; left; reflexivity). apply filter_In in K. tauto. Qed.

Ltac take := match goal with
  | F : Forall2 agg_to (_ :: _) _ |- _ => inversion F; subst; clear F
  | F : Forall2 agg_to [] _ |- _ => inversion F; subst; clear F
  end.

Lemma group_parts : forall op ch ch', closed_group op ch -> Forall (shaped keep) ch -> Forall good_leaf (leaves ch) -> filter_map_res aggregate_cst ch = Ok ch' ->
  exists t mid u, ch' = Tok t :: mid ++ [Tok u] /\ opens op t /\ closes t u.
Proof.
  intros op ch ch' (t & mid & u & -> & Ho & Hc & _) S G E. apply agg_parts in E; auto.
  assert (Gt : good_leaf t) by (inversion G; subst; assumption).
  pose proof (solid_opener _ _ Ho Gt) as Ht. pose proof (solid_closer _ _ Hc) as Hu. change (Tok t :: mid ++ [Tok u]) with ([Tok t] ++ mid ++ [Tok u]) in E. unfold parts in E. rewrite !filter_app in E.
  cbn [filter app] in E. rewrite Ht, Hu in E. cbn [negb app] in E. inversion E as [|? x ? l A E']; subst. apply agg_tok in A. subst x. apply Forall2_app_inv_l in E' as (a & b & _ & E2 & ->).
  inversion E2 as [|? y ? l2 A2 E3]; subst. inversion E3; subst. apply agg_tok in A2. subst y. exists t, a, u. auto.
Qed.
Lemma open_parts : forall op ch ch', unclosed_group op ch -> Forall (shaped keep) ch -> Forall good_leaf (leaves ch) -> filter_map_res aggregate_cst ch = Ok ch' ->
  exists t mid, ch' = Tok t :: mid /\ opens op t.
Proof.
  intros op ch ch' (t & mid & -> & Ho & _) S G E. apply agg_parts in E; auto.
  assert (Gt : good_leaf t) by (inversion G; subst; assumption). pose proof (solid_opener _ _ Ho Gt) as Ht. cbn [parts filter] in E. rewrite Ht in E. cbn [negb] in E.
  inversion E as [|? x ? l A E']; subst. apply agg_tok in A. subst x. exists t, l. auto.
Qed.

Lemma compound_parts : forall op ch ch', compound_ok op ch -> Forall (shaped keep) ch -> Forall good_leaf (leaves ch) -> filter_map_res aggregate_cst ch = Ok ch' -> ch' = ch.
Proof.
  intros op ch ch' H S G E. apply agg_parts in E; auto.
  assert (T : forall t, In (t_kind t) [TK_Symbol; TK_Error_ExpectedLetterlike; TK_Under; TK_UnderUnder; TK_UnderUnderUnder; TK_UnderDot; TK_Hash; TK_HashHash; TK_Percent; TK_Integer; TK_String] -> trivia_leaf (Tok t) = false).
  { intros t Ht. cbn [In] in Ht. cbn [trivia_leaf]. repeat (destruct Ht as [<-|Ht]; [reflexivity|]). contradiction. }
  assert (D : forall t u, ch = [Tok t; Tok u] -> trivia_leaf (Tok t) = false -> trivia_leaf (Tok u) = false -> ch' = ch).
  { intros t u -> H1 H2. unfold parts in E. cbn [filter] in E. rewrite H1, H2 in E. cbn [negb] in E. inversion E as [|? x ? l A E1]; subst. inversion E1 as [|? y ? l2 A2 E2]; subst. inversion E2; subst.
    apply agg_tok in A, A2. subst. reflexivity. }
  assert (B : forall t bop pbop, blank_entry (t_kind t) bop pbop -> trivia_leaf (Tok t) = false).
  { intros t bop pbop [(K & _)|[(K & _)|(K & _)]]; apply T; rewrite K; cbn; tauto. }
  inversion H as [t u bop pbop Hb Hu|s t n bop pbop Hs Hb Hn|s t Hs Ht|t u Ht Hu|t u Ht Hu|t u Ht Hu]; subst.
  - apply (D t u); eauto. apply T. cbn. destruct Hu as [->| ->]; tauto.
  - assert (Hs' : trivia_leaf (Tok s) = false) by (apply T; rewrite Hs; cbn; tauto). destruct Hn as [->|(u & -> & Hu)].
    + apply (D s t); eauto.
    + unfold parts in E. cbn [filter] in E. rewrite Hs' in E. cbn [trivia_leaf negb] in E. inversion E as [|? x ? l A E1]; subst. inversion E1 as [|? y ? l2 A2 E2]; subst. inversion E2; subst.
      apply agg_tok in A. subst. f_equal. f_equal. unfold agg_to in A2. cbn -[rbind] in A2. apply rbind_Ok in A2 as (cs & Ec & A2). injection A2 as <-. f_equal.
      assert (agg_removed_kind (t_kind t) = false) by (destruct Hb as [(K & _)|[(K & _)|(K & _)]]; rewrite K; reflexivity).
      assert (agg_removed_kind (t_kind u) = false) by (destruct Hu as [K|K]; rewrite K; reflexivity).
      rewrite H0, H1 in Ec. cbn in Ec. injection Ec as <-. reflexivity.
  - apply (D s t); auto; apply T; [rewrite Hs|rewrite Ht]; cbn; tauto.
  - apply (D t u); auto; apply T; [rewrite Ht|destruct Hu as [->| ->]]; cbn; tauto.
  - apply (D t u); auto; apply T; [rewrite Ht|rewrite Hu]; cbn; tauto.
  - apply (D t u); auto; apply T; [rewrite Ht|rewrite Hu]; cbn; tauto.
Qed.

Lemma agg_fits : forall n n', shaped keep n -> Forall good_leaf (toks n) -> agg_to n n' -> fits n'.
Proof.
  intros n n' S G E. apply shaped_keep in S as [S C]. unfold agg_to in E.
  assert (Q : forall ch ch' x l, filter_map_res aggregate_cst ch = Ok ch' -> parts ch = x :: l -> Forall (shaped keep) ch -> Forall good_leaf (leaves ch) -> Forall2 agg_to (x :: l) ch').
  { intros ch ch' x l H1 H2 H3 H4. rewrite <- H2. apply agg_parts; auto. }
  inversion S as [t|op ch t a prec P He|op ch t a b op2 P He|op ch a t prec P He|op ch a t b prec P He|ch a t u P Ht Hu|op ch a t b u c p1 p2 P He|ch a t b u v P Ht Hu Hv|op prec ch Ha|op ch Hc|op ch Hg|op ch Hg
    |l h op op' ch Pl Hh Oh Hop Hg|l h op op' ch Pl Hh Oh Hop Hg|e ch a t b P Ht]; subst.
  all: try (cbn [children] in C; cbn [toks] in G).
  all: try (cbn -[rbind] in E; apply rbind_Ok in E as (ch' & Ech & E); injection E as <-; pose proof (Q _ _ _ _ Ech P C G) as F;
    repeat take; repeat match goal with A : agg_to (Tok _) _ |- _ => apply agg_tok in A; subst end; econstructor; eauto; fail).
  all: try (cbn -[rbind] in E; apply rbind_Ok in E as (ch' & Ech & E); injection E as <-; econstructor; eapply alternate_joined; [exact Ha|]; eapply agg_parts; eauto; fail).
  - apply agg_tok in E. subst. constructor.
  - cbn -[rbind] in E. apply rbind_Ok in E as (ch' & Ech & E). injection E as <-. rewrite (compound_parts _ _ _ Hc C G Ech). constructor. exact Hc.
  - cbn -[rbind] in E. destruct (op =? GOP_Token_Comment); [discriminate E|]. apply rbind_Ok in E as (ch' & Ech & E). injection E as <-.
    destruct (group_parts _ _ _ Hg C G Ech) as (t & mid & u & -> & Ho & Hcl). constructor; auto.
  - cbn -[rbind] in E. apply rbind_Ok in E as (ch' & Ech & E). injection E as <-. destruct (open_parts _ _ _ Hg C G Ech) as (t & mid & -> & Ho). constructor; auto.
  - cbn -[rbind] in E. apply rbind_Ok in E as (hs & Eh & E). destruct hs as [|h' [|? ?]]; try discriminate E. apply rbind_Ok in E as (ch' & Ech & E). injection E as <-.
    apply Forall_app in G as [_ G]. apply Forall_app in C as [_ C]. destruct (group_parts _ _ _ Hg C G Ech) as (t & mid & u & -> & Ho & Hcl). econstructor; eauto.
  - cbn -[rbind] in E. apply rbind_Ok in E as (hs & Eh & E). destruct hs as [|h' [|? ?]]; try discriminate E. apply rbind_Ok in E as (ch' & Ech & E). injection E as <-.
    apply Forall_app in G as [_ G]. apply Forall_app in C as [_ C]. destruct (open_parts _ _ _ Hg C G Ech) as (t & mid & -> & Ho). econstructor; eauto.
Qed.

(** ** All nodes *)

Lemma filter_map_in : forall A B (f : A -> res (option B)) l l' b, filter_map_res f l = Ok l' -> In b l' -> exists a, In a l /\ f a = Ok (Some b).
Proof.
  intros A B f l. induction l as [|a l IH]; intros l' b E H; cbn -[rbind] in E; [injection E as <-; contradiction|].
  apply rbind_Ok in E as (x & Ex & E). apply rbind_Ok in E as (bs & Eb & E). destruct x as [y|]; injection E as <-.
  - destruct H as [<-|H]; [exists a; split; [left; reflexivity|exact Ex]|]. destruct (IH _ _ Eb H) as (c & H1 & H2). exists c. split; [right; exact H1|exact H2].
  - destruct (IH _ _ Eb H) as (c & H1 & H2). exists c. split; [right; exact H1|exact H2].
Qed.
Lemma agg_children : forall n n' c', agg_to n n' -> In c' (children n') -> exists c, In c (children n) /\ agg_to c c'.
Proof.
  intros n n' c' E H. unfold agg_to in *. destruct n as [t|[l|x] m op body|e ch|k op ch|b ch src|a b src]; cbn -[rbind] in E.
  - apply agg_tok in E. subst. contradiction.
  - apply rbind_Ok in E as (hs & Eh & E). destruct hs as [|h [|? ?]]; try discriminate E. apply rbind_Ok in E as (bs & Eb & E). injection E as <-. cbn [children] in H. destruct H as [<-|H].
    + destruct (filter_map_in _ _ _ _ _ _ Eh (or_introl eq_refl)) as (c & H1 & H2). exists c. split; auto. cbn [children]. apply in_or_app. auto.
    + destruct (filter_map_in _ _ _ _ _ _ Eb H) as (c & H1 & H2). exists c. split; auto. cbn [children]. apply in_or_app. auto.
  - discriminate E.
  - apply rbind_Ok in E as (bs & Eb & E). injection E as <-. eapply filter_map_in; eauto.
  - assert (K : rbind (filter_map_res aggregate_cst ch) (fun ch => Ok (Some (Op k op ch))) = Ok (Some n')).
    { destruct k; auto. destruct (op =? GOP_Token_Comment); [discriminate E|auto]. }
    apply rbind_Ok in K as (bs & Eb & K). injection K as <-. eapply filter_map_in; eauto.
  - apply rbind_Ok in E as (bs & Eb & E). injection E as <-. eapply filter_map_in; eauto.
  - injection E as <-. contradiction.
Qed.
Lemma agg_nodes : forall n n' m', agg_to n n' -> In m' (nodes n') -> exists m, In m (nodes n) /\ agg_to m m'.
Proof.
  apply (cst_ind' (fun n => forall n' m', agg_to n n' -> In m' (nodes n') -> exists m, In m (nodes n) /\ agg_to m m')). intros n IH n' m' E H.
  rewrite nodes_subnodes in H. destruct H as [<-|H]; [exists n; split; [apply nodes_self|exact E]|].
  apply in_flat_map in H as (c' & Hc & H). destruct (agg_children _ _ _ E Hc) as (c & Hc' & Ec). rewrite Forall_forall in IH. destruct (IH c Hc' _ _ Ec H) as (m & Hm & Em).
  exists m. split; auto. eapply nodes_trans; [apply child_nodes|]; eauto.
Qed.

Lemma shaped_down : forall n m, shaped keep n -> In m (nodes n) -> shaped keep m.
Proof.
  apply (cst_ind' (fun n => forall m, shaped keep n -> In m (nodes n) -> shaped keep m)). intros n IH m S H. rewrite nodes_subnodes in H. destruct H as [<-|H]; auto.
  apply in_flat_map in H as (c & Hc & H). apply shaped_keep in S as [_ S]. rewrite Forall_forall in *. eauto.
Qed.
Lemma leaf_down : forall (Q : token -> Prop) n m, Forall Q (toks n) -> In m (nodes n) -> Forall Q (toks m).
Proof. intros Q n m H Hm. destruct (nodes_toks n m Hm) as (a & b & E). rewrite E in H. apply Forall_app in H as [_ H]. apply Forall_app in H. tauto. Qed.

Lemma agg_all_fit : forall n n', shaped keep n -> Forall good_leaf (toks n) -> agg_to n n' -> Forall fits (nodes n').
Proof.
  intros n n' S G E. apply Forall_forall. intros m' Hm. destruct (agg_nodes _ _ _ E Hm) as (m & H1 & H2). eapply agg_fits; [eapply shaped_down; eauto| |exact H2]. eapply leaf_down; eauto.
Qed.

Lemma fits_solid : forall n, Forall fits (nodes n) -> solid n.
Proof.
  apply (cst_ind' (fun n => Forall fits (nodes n) -> solid n)). intros n IH H.
  assert (C : Forall solid (children n)).
  { rewrite Forall_forall in *. intros c Hc. apply IH; auto. apply Forall_forall. intros m Hm. apply H. eapply nodes_trans; [apply child_nodes|]; eauto. }
  rewrite nodes_subnodes in H. apply Forall_cons_iff in H as [H _]. clear IH.
  assert (D : forall t mid (u : list cst), Tok t :: mid ++ u <> []) by discriminate.
  inversion H as [| | | | | | | |op ch J|op ch J| | | | |]; subst; cbn [children] in C; try (constructor; [discriminate|exact C]); try (constructor; fail).
  - constructor; [inversion J; discriminate|exact C].
  - constructor; [inversion J; discriminate|exact C].
  - apply Forall_cons_iff in C as [C1 C2]. constructor; auto; cbn; discriminate || auto.
  - apply Forall_cons_iff in C as [C1 C2]. constructor; auto; cbn; discriminate || auto.
Qed.

(** ** The trees of a parse *)

Definition clean_token (t : token) : Prop := good_leaf t /\ utf8_valid (t_text t) = true.
Definition good (n : cst) : Prop := Forall fits (nodes n) /\ Forall clean_token (toks n) /\ exists a e, spaced a (toks n) e.

Lemma good_down : forall n m, good n -> In m (nodes n) -> good m.
Proof.
  intros n m (H1 & H2 & a & e & H3) Hm. split; [|split].
  - rewrite Forall_forall in *. intros k Hk. apply H1. eapply nodes_trans; eauto.
  - eapply leaf_down; eauto.
  - destruct (nodes_toks n m Hm) as (x & y & E). rewrite E in H3. apply spaced_app in H3 as (b & _ & H3). apply spaced_app in H3 as (c & H3 & _). eauto.
Qed.
Lemma good_source : forall n, good n -> exists s, get_source n = Ok s /\ ends_at n s.
Proof. intros n (H1 & _ & a & e & H2). destruct (get_source_spaced n a e (fits_solid n H1) H2) as (s & E & H & _). eauto. Qed.

Lemma agg_seq_in : forall l l' n', aggregate_cst_seq l = Ok l' -> In n' l' -> exists n, In n l /\ agg_to n n'.
Proof. intros l l' n' E H. exact (filter_map_in _ _ _ _ _ _ E H). Qed.

Lemma parse_good : forall o dbg b input l s' l' n', 0 < o_tab_width o -> well_formed_no_bom input -> parse_cst_raw o dbg keep b input = Ok (l, s') ->
  aggregate_cst_seq l = Ok l' -> In n' l' -> good n'.
Proof.
  intros o dbg b input l s' l' n' Ht W E Ea Hn'. destruct (agg_seq_in _ _ _ Ea Hn') as (n & Hn & En).
  destruct (parse_facts o dbg keep b input l s' Ht keep_ok E) as (s0 & us & z' & F1 & F2 & F3 & F4 & F5 & F6 & F7 & F8 & F9 & F10 & F11 & F12 & _).
  destruct F12 as (g & Hm & F12). apply mended_keep in Hm. subst g.
  pose proof (row_trivia _ _ _ _ F12) as T. pose proof (row_kind _ _ _ _ F12) as K.
  assert (U : Forall (fun t => utf8_valid (t_text t) = true) (leaves l)).
  { apply (row_utf8 _ _ _ _ F12). destruct F5 as ((cs & M & _) & _). destruct (moves_clean _ _ _ _ _ _ M) as (W2 & _); [|exact W2]. exact W. }
  assert (SP : spaced (ploc (cur s0)) (leaves l) (ploc (cur z'))).
  { apply row_spaced. refine (row_in_a_row o (here s0) _ (here z') _ F12). exact (leb_self o s0 F4). }
  apply in_split in Hn as (l1 & l2 & ->). change (n :: l2) with ([n] ++ l2) in *. rewrite !leaves_app in *.
  apply Forall_app in T as [_ T]. apply Forall_app in T as [T _]. apply Forall_app in K as [_ K]. apply Forall_app in K as [K _]. apply Forall_app in U as [_ U]. apply Forall_app in U as [U _].
  apply spaced_app in SP as (b1 & _ & SP). apply spaced_app in SP as (b2 & SP & _). unfold leaves in T, K, U, SP. cbn [flat_map] in T, K, U, SP. rewrite app_nil_r in T, K, U, SP.
  apply Forall_app in F9 as [_ F9]. inversion F9 as [|? ? Sn _]; subst.
  assert (G : Forall good_leaf (toks n)) by (rewrite Forall_forall in *; intros t Hin; split; auto).
  destruct (shaped_heads n Sn G) as [_ NC].
  pose proof (aggregate_tokens n n' _ _ NC En (tokens_of_toks n) (tokens_of_toks n')) as Et.
  split; [eapply agg_all_fit; eauto|]. rewrite Et. split; [|exists b1, b2; apply spaced_filter; exact SP].
  apply Forall_forall. intros t Hin. apply filter_In in Hin as [Hin _]. rewrite Forall_forall in *. split; auto.
Qed.
