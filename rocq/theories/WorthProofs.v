(** From an expression (SpecPrint.v) through the tree that shows it and what is left of that tree
    without white space to its value (SpecWorth.v, SpecValue.v). *)
From Coq Require Import String.
From Coq Require Import ZArith List Bool Lia.
From Verif Require Import Base Source GenTokenKind TokenKind GenOps GenSymbols GenParselets Parselets Tokenizer SpecText SpecReader SpecTokenizer Cst SpecCst CstProofs Parser SpecParser SpecParse
  PropsReader TokLogic ParserLogic ParserRules ParserProofs ParserResults ParserTheorems Ast Abstract SpecAbstract AbstractProofs AbstractShape AbstractTheorems AbstractValue RepairProofs ErrorReparse ParserPrint PrintResults SpecValue SpecPrint SpecWorth.
Import ListNotations.
Local Open Scope string_scope.
Local Open Scope list_scope.
Local Open Scope Z_scope.

(** ** Trees without white space *)
Fixpoint plain (e : expr) (n : cst) : Prop :=
  match e with
  | Leaf w => is_word w n
  | Prefix op a => exists p o t m, as_prefix (fst op) = Some (p, o) /\ n = Op KPrefix o [t; m] /\ is_word op t /\ plain a m
  | Postfix a op => exists p o t m, as_postfix (fst op) = Some (p, o) /\ n = Op KPostfix o [m; t] /\ is_word op t /\ plain a m
  | Binary a op b => exists p o l t r, as_binary (fst op) = Some (p, o) /\ n = Op KBinary o [l; t; r] /\ plain a l /\ is_word op t /\ plain b r
  | Infix a r => exists p o m l, as_infix (fst (head_word r)) = Some (p, o) /\ n = Op KInfix o (m :: l) /\ plain a m /\ plain_tail r l
  | Group opener b closer => exists u o t l v, prefix_of (fst opener) = PP_Group u o /\ n = Op KGroup o (t :: l ++ [v]) /\ is_word opener t /\ plain_body b l /\ is_word closer v
  | Apply h opener b closer => exists u o o' m t l v, infix_of (fst opener) = IP_Call u o /\ try_to_call_operator o = Ok o' /\
      n = Call (Aggregate m) false o' (t :: l ++ [v]) /\ plain h m /\ is_word opener t /\ plain_body b l /\ is_word closer v
  end
with plain_tail (r : tail) (l : list cst) : Prop :=
  match r with
  | Last op b => exists t m, l = [t; m] /\ is_word op t /\ plain b m
  | Then op b r => exists t m l', l = t :: m :: l' /\ is_word op t /\ plain b m /\ plain_tail r l'
  end
with plain_body (b : body) (l : list cst) : Prop :=
  match b with
  | Empty => l = []
  | Single a => exists n, l = [n] /\ plain a n
  | Several a r => exists m l', l = [Op KInfix IOP_CodeParser_Comma (m :: l')] /\ plain a m /\ plain_tail r l'
  end.

Definition sane (n : cst) : Prop := shaped keep n /\ Forall good_leaf (toks n).
Lemma sane_list : forall l, Forall sane l -> Forall (shaped keep) l /\ Forall good_leaf (leaves l).
Proof.
  intros l H. split; [eapply Forall_impl; [|exact H]; intros n [X _]; exact X|]. induction H as [|n l [_ H] _ IH]; [constructor|]. unfold leaves in *. cbn [flat_map]. apply Forall_app. auto.
Qed.
Lemma sane_children : forall n, sane n -> Forall sane (children n).
Proof.
  intros n [H1 H2]. apply Forall_forall. intros c Hc. split; [eapply shaped_down; eauto; eapply child_nodes; eauto|]. eapply leaf_down; eauto. eapply child_nodes; eauto.
Qed.
Lemma sane_parts : forall l, Forall sane l -> Forall sane (parts l).
Proof. intros l H. rewrite Forall_forall in *. intros n Hn. apply filter_In in Hn as [Hn _]. auto. Qed.
Lemma agg_word : forall w n n', is_word w n -> agg_to n n' -> is_word w n'.
Proof. intros w n n' (t & -> & E) A. apply agg_tok in A. subst. exists t. auto. Qed.
Lemma agg_op : forall k op ch n', sane (Op k op ch) -> agg_to (Op k op ch) n' -> exists ch', n' = Op k op ch' /\ Forall2 agg_to (parts ch) ch' /\ Forall sane (parts ch).
Proof.
  intros k op ch n' S E. unfold agg_to in E. pose proof (sane_children _ S) as C. cbn [children] in C.
  assert (K : rbind (filter_map_res aggregate_cst ch) (fun ch => Ok (Some (Op k op ch))) = Ok (Some n')).
  { cbn -[rbind] in E. destruct k; auto. destruct (op =? GOP_Token_Comment); [discriminate E|auto]. }
  apply rbind_Ok in K as (ch' & Ec & K). injection K as <-. exists ch'. split; [reflexivity|]. split; [|apply sane_parts; exact C]. apply sane_list in C as [C1 C2]. apply agg_parts; auto.
Qed.
Lemma agg_call : forall hd m op ch n', sane (Call (Concrete hd) m op ch) -> agg_to (Call (Concrete hd) m op ch) n' ->
  exists h' ch', n' = Call (Aggregate h') m op ch' /\ Forall2 agg_to (parts hd) [h'] /\ Forall2 agg_to (parts ch) ch' /\ Forall sane (parts hd) /\ Forall sane (parts ch).
Proof.
  intros hd m op ch n' S E. unfold agg_to in E. pose proof (sane_children _ S) as C. cbn [children] in C. apply Forall_app in C as [C1 C2].
  cbn -[rbind] in E. apply rbind_Ok in E as (hs & Eh & E). destruct hs as [|h' [|? ?]]; try discriminate E. apply rbind_Ok in E as (ch' & Ec & E). injection E as <-.
  exists h', ch'. split; [reflexivity|]. split; [apply sane_list in C1 as [? ?]; apply agg_parts; auto|]. split; [apply sane_list in C2 as [? ?]; apply agg_parts; auto|]. split; apply sane_parts; auto.
Qed.

Ltac pull := repeat match goal with
  | F : Forall2 agg_to (_ :: _) _ |- _ => inversion F; subst; clear F
  | F : Forall2 agg_to [] _ |- _ => inversion F; subst; clear F
  | F : Forall sane (_ :: _) |- _ => apply Forall_cons_iff in F as [? F]
  end.
Lemma agg_plain : (forall e n n', sane n -> shows e n -> agg_to n n' -> plain e n') /\
  (forall r l l', Forall sane l -> shows_tail r l -> Forall2 agg_to l l' -> plain_tail r l') /\
  (forall b l l', Forall sane l -> shows_body b l -> Forall2 agg_to l l' -> plain_body b l').
Proof.
  apply expr_ind2; cbn [shows shows_tail shows_body plain plain_tail plain_body].
  - intros w n n' _ H A. eapply agg_word; eauto.
  - intros w a IH n n' S (p & o & ch & t & m & E & -> & P & T & M) A. destruct (agg_op _ _ _ _ S A) as (ch' & -> & F & C). rewrite P in F, C. pull. do 4 eexists. repeat split; eauto using agg_word.
  - intros a IH w n n' S (p & o & ch & t & m & E & -> & P & T & M) A. destruct (agg_op _ _ _ _ S A) as (ch' & -> & F & C). rewrite P in F, C. pull. do 4 eexists. repeat split; eauto using agg_word.
  - intros a IHa w b IHb n n' S (p & o & ch & l & t & r & E & -> & P & L & T & R) A. destruct (agg_op _ _ _ _ S A) as (ch' & -> & F & C). rewrite P in F, C. pull. do 5 eexists. repeat split; eauto using agg_word.
  - intros a IHa r IHr n n' S (p & o & ch & m & l & E & -> & P & M & L) A. destruct (agg_op _ _ _ _ S A) as (ch' & -> & F & C). rewrite P in F, C.
    inversion F as [|? m' ? l' F1 F2]; subst. apply Forall_cons_iff in C as [C1 C2]. do 4 eexists. repeat split; eauto.
  - intros w b IHb v n n' S (u & o & ch & t & l & y & E & -> & P & T & L & Y) A. destruct (agg_op _ _ _ _ S A) as (ch' & -> & F & C). rewrite P in F, C.
    inversion F as [|? t' ? l' F1 F2]; subst. apply Forall_cons_iff in C as [C1 C2]. apply Forall2_app_inv_l in F2 as (x & z & F2 & F3 & ->). apply Forall_app in C2 as [C2 C3]. pull.
    do 5 eexists. repeat split; eauto using agg_word.
  - intros h IHh w b IHb v n n' S (u & o & o' & hd & ch & m & t & l & y & E & E' & -> & Ph & M & P & T & L & Y) A. destruct (agg_call _ _ _ _ _ S A) as (h' & ch' & -> & Fh & F & Ch & C).
    rewrite P in F, C. rewrite Ph in Fh, Ch. pull. apply Forall_app in C as [C2 C3]. match goal with F2 : Forall2 agg_to (l ++ [y]) _ |- _ => apply Forall2_app_inv_l in F2 as (x & z & F2 & F3 & ->) end. pull.
    do 7 eexists. repeat split; eauto using agg_word.
  - intros w b IH l l' S (t & m & -> & T & M) F. pull. do 2 eexists. repeat split; eauto using agg_word.
  - intros w b IH r IHr l l' S (t & m & l0 & -> & T & M & R) F. pull. do 3 eexists. repeat split; eauto using agg_word.
  - intros l l' S -> F. pull. reflexivity.
  - intros a IH l l' S (n & -> & N) F. pull. eexists. split; eauto.
  - intros a IH r IHr l l' S (ch & m & l0 & -> & P & M & R) F. pull. match goal with A : agg_to _ _, S : sane _ |- _ => destruct (agg_op _ _ _ _ S A) as (ch' & -> & F & C) end. rewrite P in F, C. pull.
    do 2 eexists. split; [reflexivity|]. split; eauto.
Qed.

(** ** What the tables say *)
Lemma chain_kinds : forall k p o, as_infix k = Some (p, o) -> o <> IOP_CodeParser_InternalInvalid /\ (o = IOP_Plus -> In k [TK_Plus; TK_Minus; TK_LongName_Minus; TK_LongName_ImplicitPlus]).
Proof.
  intros k p o H. unfold as_infix in H. destruct (infix_of k) eqn:E; try discriminate H; injection H as <- <-; [|split; discriminate].
  unfold infix_of in E. destruct (assoc k INFIX_PARSELETS) as [v|] eqn:A; [|discriminate E]. apply ParserProofs.assoc_in in A. subst v.
  assert (X : forallb (fun r => match snd r with IP_InfixOperator _ o => if o =? IOP_CodeParser_InternalInvalid then false else if o =? IOP_Plus then zin (fst r) [TK_Plus; TK_Minus; TK_LongName_Minus; TK_LongName_ImplicitPlus] else true | _ => true end) INFIX_PARSELETS = true) by (vm_compute; reflexivity).
  pose proof (proj1 (forallb_forall _ _) X _ A) as Y. cbn beta in Y. cbn [fst snd] in Y. destruct (Z.eqb_spec op IOP_CodeParser_InternalInvalid) as [|N]; [discriminate Y|]. split; [exact N|]. intros ->. rewrite Z.eqb_refl in Y. apply zin_In. exact Y.
Qed.
Lemma prime_kind : forall k p, as_postfix k = Some (p, POSTOP_Derivative) -> k = TK_SingleQuote.
Proof.
  intros k p H. unfold as_postfix in H. destruct (infix_of k) eqn:E; try discriminate H. assert (op = POSTOP_Derivative) by congruence. subst op.
  unfold infix_of in E. destruct (assoc k INFIX_PARSELETS) as [v|] eqn:A; [|discriminate E]. apply ParserProofs.assoc_in in A. subst v.
  assert (X : forallb (fun r => match snd r with IP_PostfixOperator _ o => if o =? POSTOP_Derivative then fst r =? TK_SingleQuote else true | _ => true end) INFIX_PARSELETS = true) by (vm_compute; reflexivity).
  pose proof (proj1 (forallb_forall _ _) X _ A) as Y. cbn beta in Y. cbn [fst snd] in Y. rewrite Z.eqb_refl in Y. apply Z.eqb_eq. exact Y.
Qed.
Lemma square_kind : forall k u, prefix_of k = PP_Group u GOP_CodeParser_GroupSquare -> k = TK_OpenSquare.
Proof.
  intros k u E. unfold prefix_of in E. destruct (assoc k PREFIX_PARSELETS) as [v|] eqn:A; [|discriminate E]. apply ParserProofs.assoc_in in A. subst v.
  assert (X : forallb (fun r => match snd r with PP_Group _ o => if o =? GOP_CodeParser_GroupSquare then fst r =? TK_OpenSquare else true | _ => true end) PREFIX_PARSELETS = true) by (vm_compute; reflexivity).
  pose proof (proj1 (forallb_forall _ _) X _ A) as Y. cbn beta in Y. cbn [fst snd] in Y. rewrite Z.eqb_refl in Y. apply Z.eqb_eq. exact Y.
Qed.

(** ** Trees of the expressions *)
Ltac open H := cbn [plain] in H; unfold is_word in H;
  repeat match type of H with ex _ => destruct H as [? H] | _ /\ _ => let X := fresh "X" in destruct H as [X H]; try discriminate X end.
Lemma plain_no_comma : forall e n, proper e -> plain e n -> ~ is_comma n.
Proof.
  intros e n P H (ch & ->). destruct e; try (open H; discriminate H || fail). cbn [plain] in H. destruct H as (p & o & m & l & E & X & _). injection X as <- _. apply chain_row in E as [_ E]. exact (E eq_refl).
Qed.
Lemma plain_square : forall e ch, plain e (Op KGroup GOP_CodeParser_GroupSquare ch) -> exists t b u, e = SpecPrint.Group t b u /\ fst t = TK_OpenSquare.
Proof.
  intros e ch H. destruct e; try (exfalso; open H; discriminate H). cbn [plain] in H. destruct H as (u & o & t & l & v & E & X & _). injection X as <- _. do 3 eexists. split; [reflexivity|]. eapply square_kind; eauto.
Qed.
Lemma plain_head : forall s e n, plain e n -> own_head s n -> heads s e.
Proof.
  intros s e n H (t & u & x & -> & K & T). destruct e; try (exfalso; open H; discriminate H). cbn [plain] in H. destruct H as (p & o & l & v & r & E & X & L & _). injection X as <- <- _ _.
  destruct e1; try (exfalso; open L; discriminate L). cbn [plain] in L. destruct L as (t' & X & <-). injection X as <-. rewrite K, T. do 3 eexists. split; [reflexivity|exact E].
Qed.
Lemma plain_postfix : forall e ch, plain e (Op KPostfix POSTOP_Derivative ch) -> exists a t, e = Postfix a t /\ fst t = TK_SingleQuote.
Proof.
  intros e ch H. destruct e; try (exfalso; open H; discriminate H). cbn [plain] in H. destruct H as (p & o & t & m & E & X & _). injection X as <- _. do 2 eexists. split; [reflexivity|]. eapply prime_kind; eauto.
Qed.
Lemma plain_test : forall e ch, plain e (Op KBinary BOP_PatternTest ch) -> exists a t b p, e = Binary a t b /\ as_binary (fst t) = Some (p, BOP_PatternTest).
Proof.
  intros e ch H. destruct e; try (exfalso; open H; discriminate H). cbn [plain] in H. destruct H as (p & o & l & t & r & E & X & _). injection X as <- _. do 4 eexists. split; [reflexivity|exact E].
Qed.

(** the tokens and operands of a chain *)
Definition same_word (w : SpecPrint.word) (t : token) : Prop := (t_kind t, t_text t) = w.
Lemma plain_chain : forall r l, plain_tail r l -> exists ts ms, (forall m, separated (m :: l) ts (m :: ms)) /\ Forall2 same_word (ops r) ts /\ Forall2 plain (operands r) ms.
Proof.
  induction r as [w b|w b r IH]; intros l H; cbn [plain_tail] in H.
  - destruct H as (t & m & -> & (t' & -> & T) & M). exists [t'], [m]. split; [intros x; repeat constructor|]. split; repeat constructor; auto.
  - destruct H as (t & m & l' & -> & (t' & -> & T) & M & R). destruct (IH _ R) as (ts & ms & S & O & Q). exists (t' :: ts), (m :: ms). split; [intros x; constructor; apply S|]. split; constructor; auto.
Qed.
Lemma proper_operands : forall r p o, proper_tail p o r -> Forall proper (operands r) /\ Forall (fun w : SpecPrint.word => exists q, as_infix (fst w) = Some (q, o)) (ops r).
Proof.
  induction r as [w b|w b r IH]; intros p o H; cbn [proper_tail] in H.
  - destruct H as ([J _] & _ & P). split; repeat constructor; auto.
  - destruct H as ([J _] & _ & P & _ & _ & R). apply IH in R as [R1 R2]. split; constructor; auto.
Qed.
Lemma list_operands : forall r, proper_list r -> Forall proper (operands r).
Proof. induction r as [w b|w b r IH]; intros H; cbn [proper_list] in H; [destruct H as [_ P]; repeat constructor; auto|]. destruct H as (_ & P & R). constructor; auto. Qed.

(** ** Values *)
Section Value.
Variable w : world.

Lemma tally_total : forall l ts, Forall2 same_word l ts -> forall (v : V w) vs, tally w v (combine l vs) = total w v (combine ts vs).
Proof.
  intros l ts H. induction H as [|x t l ts E _ IH]; intros v vs; [reflexivity|]. destruct vs as [|b vs]; [reflexivity|]. cbn [combine tally total]. rewrite IH. rewrite <- E. reflexivity.
Qed.
Definition inside (b : body) : Prop := forall l t u vs, proper_body b -> plain_body b l -> worth_inside w b vs -> means_inside w (t :: l ++ [u]) vs.
Definition valued (e : expr) : Prop :=
  (forall n, proper e -> plain e n ->
    (forall v, worth w e v -> means w n v) /\
    (forall k x v, primes e k x -> worth w x v -> exists m, primed n k m /\ means w m v)) /\
  (forall t b u, e = SpecPrint.Group t b u -> inside b).
Lemma valued_list : forall es ms vs, Forall valued es -> Forall proper es -> Forall2 plain es ms -> Forall2 (worth w) es vs -> Forall2 (means w) ms vs.
Proof.
  intros es ms vs H P F. revert vs. induction F as [|e n es ms N F IH]; intros vs W; inversion W; subst; constructor; apply Forall_cons_iff in H as [H Hr]; apply Forall_cons_iff in P as [P Pr]; auto.
  apply (proj1 H n P N). assumption.
Qed.
Lemma no_heads : forall s es ms, Forall2 plain es ms -> Forall (fun e => ~ heads s e) es -> Forall (fun n => ~ own_head s n) ms.
Proof. intros s es ms F. induction F as [|e n es ms N F IH]; intros H; constructor; apply Forall_cons_iff in H as [H Hr]; auto. intros X. apply H. eapply plain_head; eauto. Qed.
Lemma all_compared : forall l ts ss, Forall2 same_word l ts -> Forall2 compared l ss -> Forall2 compares ts ss.
Proof.
  intros l ts ss H. revert ss. induction H as [|x t l ts E _ IH]; intros ss C; inversion C as [|? s ? ss' C1 C2]; subst; constructor; auto. destruct C1 as (ks & C1 & C3). exists ks. split; [exact C1|]. unfold same_word in E. subst x. exact C3.
Qed.
Lemma all_signs : forall l ts, Forall2 same_word l ts -> Forall (fun x : SpecPrint.word => exists q, as_infix (fst x) = Some (q, IOP_Plus)) l -> Forall (fun t => adds t = true \/ subtracts t = true) ts.
Proof.
  intros l ts H. induction H as [|x t l ts E _ IH]; intros C; constructor; apply Forall_cons_iff in C as [[q C] Cr]; auto.
  apply chain_kinds in C as [_ C]. specialize (C eq_refl). unfold same_word in E. subst x. cbn [fst] in C. unfold adds, subtracts. cbn [In] in C. destruct C as [ <- | [ <- | [ <- | [ <- | [] ]]]]; [left|right|right|left]; reflexivity.
Qed.

Lemma tested : forall a m, plain a m -> (forall a' t' b' q, a = Binary a' t' b' -> as_binary (fst t') <> Some (q, BOP_PatternTest)) -> forall ch, m <> Op KBinary BOP_PatternTest ch.
Proof. intros a m H N ch ->. apply plain_test in H as (a' & t & b & p & -> & E). exact (N _ _ _ _ eq_refl E). Qed.

Ltac opn E := match goal with A : ?x = Some (_, _) |- _ => match type of E with x = Some (_, _) => rewrite E in A; injection A as ? ?; subst end end.

Lemma leaf_valued : forall x, valued (Leaf x).
Proof.
  intros x. split; [|discriminate]. intros n P H. split; [|intros k y v Q; inversion Q].
  cbn [plain] in H. destruct H as (t & -> & E). intros v W. remember (Leaf x) as e eqn:Ee. destruct W; try discriminate Ee.
  - injection Ee as <-. injection E as E1 <-. constructor; auto.
  - injection Ee as <-. injection E as <- <-. constructor; auto.
  - injection Ee as <-. injection E as E1 <-. constructor; auto.
  - injection Ee as <-. injection E as <- _. constructor; auto.
  - subst. inversion H.
Qed.
Lemma prefix_valued : forall x a, valued a -> valued (Prefix x a).
Proof.
  intros x a [IH _]. split; [|discriminate]. intros n P H. split; [|intros k y v Q; inversion Q].
  cbn [proper] in P. destruct P as (_ & _ & _ & _ & Pa). cbn [plain] in H. destruct H as (p & o & t & m & E & -> & T & M). destruct (IH m Pa M) as [IHm _].
  intros v W. remember (Prefix x a) as e eqn:Ee. destruct W; try discriminate Ee; try (injection Ee as <- <-; rewrite E in H; injection H as -> ->).
  - apply means_minus; auto.
  - apply means_plus; auto.
  - apply means_prefix; auto.
  - apply means_not_not; auto.
  - subst. inversion H.
Qed.
Lemma postfix_valued : forall a x, valued a -> valued (Postfix a x).
Proof.
  intros a x [IH _]. split; [|discriminate]. intros n P H. cbn [proper] in P. destruct P as (_ & _ & _ & Pa & _). cbn [plain] in H. destruct H as (p & o & t & m & E & -> & T & M). destruct (IH m Pa M) as [IHm IHp].
  assert (Z : forall k y v, primes (Postfix a x) k y -> worth w y v -> exists m0, primed (Op KPostfix o [m; t]) k m0 /\ means w m0 v).
  { intros k y v Q W. destruct T as (t' & -> & T). inversion Q as [a' x' K N|a' k' y' x' Q' K]; subst; cbn [fst] in K.
    - exists m. rewrite K in E. vm_compute in E. injection E as _ <-. split; [|auto]. apply primed_one; [exact K|]. intros ch ->. apply plain_postfix in M as (a' & t'' & -> & K'). exact (N _ _ eq_refl K').
    - destruct (IHp _ _ _ Q' W) as (m0 & Q0 & M0). exists m0. rewrite K in E. vm_compute in E. injection E as _ <-. split; [|exact M0]. apply primed_more; auto. }
  split; [|exact Z].
  intros v W. remember (Postfix a x) as e eqn:Ee. destruct W; try discriminate Ee; try (injection Ee as <- <-; rewrite E in H; injection H as -> ->).
  - apply means_postfix; auto.
  - apply means_hermitian; auto.
  - subst. destruct (Z _ _ _ H W) as (m0 & Q & M0). assert (o = POSTOP_Derivative) by (inversion Q; reflexivity). subst o. eapply means_derivative; eauto.
Qed.
Lemma binary_valued : forall a x b, valued a -> valued b -> valued (Binary a x b).
Proof.
  intros a x b [IHa _] [IHb _]. split; [|discriminate]. intros n P H. split; [|intros k y v Q; inversion Q].
  cbn [proper] in P. destruct P as (_ & _ & _ & Pa & _ & _ & Pb). cbn [plain] in H. destruct H as (p & o & l & t & r & E & -> & L & T & R). destruct (IHa l Pa L) as [IHl _]. destruct (IHb r Pb R) as [IHr _].
  intros v W. remember (Binary a x b) as e eqn:Ee. destruct W; try discriminate Ee; try (injection Ee as <- <- <-; rewrite E in H; injection H as -> ->).
  - apply means_quotient; auto.
  - apply means_power; auto.
  - apply means_at; auto.
  - apply means_slash_slash; auto.
  - subst. inversion H.
  - apply means_binary; auto.
  - apply means_pattern_test; auto. eapply tested; eauto.
Qed.
Lemma infix_valued : forall a r, valued a -> Forall valued (operands r) -> valued (Infix a r).
Proof.
  intros a r IHa IHr. split; [|discriminate]. intros n P H. split; [|intros k y v Q; inversion Q].
  cbn [proper] in P. destruct P as (p & o & E & Pa & _ & Pr). cbn [plain] in H. destruct H as (p' & o' & m & l & E' & -> & M & R). rewrite E in E'. injection E' as <- <-.
  destruct (proper_operands _ _ _ Pr) as [Po Ps]. destruct (plain_chain _ _ R) as (ts & ms & S & O & Q).
  assert (IHs : forall v vs, worth w a v -> Forall2 (worth w) (operands r) vs -> means w m v /\ Forall2 (means w) ms vs).
  { intros v vs W1 W2. split; [apply (proj1 IHa m Pa M); auto|]. apply (valued_list (operands r)); auto. }
  intros v W. remember (Infix a r) as e eqn:Ee. destruct W; try discriminate Ee; try (injection Ee as -> ->; rewrite E in H; injection H as <- ->).
  - destruct (IHs _ _ W H0) as [M1 M2]. rewrite (tally_total _ _ O). eapply means_sum; eauto. eapply all_signs; eauto.
  - destruct (IHs _ _ W H0) as [M1 M2]. eapply means_product; [apply S|constructor; auto].
  - destruct (IHs _ _ W H2) as [M1 M2]. eapply means_comparison; eauto. eapply all_compared; eauto.
  - subst. inversion H.
  - destruct (IHs _ _ W H2) as [M1 M2]. eapply means_infix; [|apply S| |constructor; auto].
    + intros X. cbn [In] in X. apply H0. cbn [In]. destruct (chain_row _ _ _ E) as [_ N1]. destruct (chain_kinds _ _ _ E) as [N2 _]. repeat (destruct X as [X|X]; [auto 9; congruence|]). contradiction.
    + eapply no_heads; [|exact H1]. constructor; auto.
  - destruct (IHs _ _ W H1) as [M1 M2]. eapply means_divides; [apply S| |constructor; auto]. eapply no_heads; [|exact H0]. constructor; auto.
Qed.
Lemma group_valued : forall x b y, (inside b /\ forall a, b = Single a -> valued a) -> valued (SpecPrint.Group x b y).
Proof.
  intros x b y [IH IH1]. split; [|intros x' b' y' E; injection E as _ <- _; exact IH]. intros n P H. split; [|intros k z v Q; inversion Q].
  cbn [proper] in P. destruct P as (_ & _ & Pb). cbn [plain] in H. destruct H as (u & o & t & l & v0 & E & -> & T & B & V0).
  intros v W. remember (SpecPrint.Group x b y) as e eqn:Ee. destruct W; try discriminate Ee.
  - injection Ee as <- <- <-. rewrite H in E. vm_compute in E. injection E as _ <-. cbn [plain_body] in B. destruct B as (n & -> & B). cbn [proper_body] in Pb. cbn [List.app]. apply means_parentheses; [eapply plain_no_comma; eauto|].
    apply (proj1 (IH1 _ eq_refl) n Pb B). exact W.
  - injection Ee as <- <- <-. rewrite E in H. injection H as <- <-. apply means_group; auto.
  - subst. inversion H.
Qed.
Lemma apply_valued : forall h x b y, valued h -> (inside b /\ forall a, b = Single a -> valued a) -> valued (Apply h x b y).
Proof.
  intros h x b y [IHh _] [IH IH1]. split; [|discriminate]. intros n P H. split; [|intros k z v Q; inversion Q].
  cbn [proper] in P. destruct P as (_ & _ & Ph & _ & Pb). cbn [plain] in H. destruct H as (u & o & o' & m & t & l & v0 & E & E' & -> & M & T & B & V0). destruct (IHh m Ph M) as [IHm _].
  intros v W. remember (Apply h x b y) as e eqn:Ee. destruct W; try discriminate Ee.
  - injection Ee as -> -> -> ->. rewrite H in E. vm_compute in E. injection E as _ <-. vm_compute in E'. injection E' as <-. apply means_call; auto. intros a1 m1 a2 Eb (ch & ->). injection Eb as _ Eb.
    destruct l as [|z [|? ?]]; try discriminate Eb; [|destruct l; discriminate Eb]. injection Eb as -> _. apply H0. destruct b; cbn [plain_body] in B.
    + discriminate B.
    + destruct B as (n & Ez & B). injection Ez as <-. apply plain_square in B as (t1 & b1 & u1 & -> & K). do 3 eexists. split; [reflexivity|exact K].
    + destruct B as (? & ? & Ez & _). discriminate Ez.
  - injection Ee as <- <- <- <-. rewrite H in E. vm_compute in E. injection E as _ <-. vm_compute in E'. injection E' as <-. cbn [plain_body] in B. destruct B as (n & -> & B). cbn [plain] in B.
    destruct B as (u2 & o2 & t2 & l2 & v2 & E2 & -> & _ & B2 & _). rewrite H0 in E2. vm_compute in E2. injection E2 as _ <-. cbn [List.app]. apply means_part; auto.
    cbn [proper_body proper] in Pb. destruct Pb as (_ & _ & Pb). apply (proj2 (IH1 _ eq_refl) _ _ _ eq_refl); auto.
  - injection Ee as <- <- <- <-. rewrite H in E. vm_compute in E. injection E as _ <-. vm_compute in E'. injection E' as <-. apply means_part_long; auto.
  - injection Ee as <- <- <- <-. rewrite H in E. vm_compute in E. injection E as _ <-. vm_compute in E'. injection E' as <-. apply means_type_specifier; auto.
  - subst. inversion H.
Qed.
Lemma worth_means : (forall e, valued e) /\ (forall r, Forall valued (operands r)) /\ (forall b, inside b /\ forall a, b = Single a -> valued a).
Proof.
  apply expr_ind2; auto using leaf_valued, prefix_valued, postfix_valued, binary_valued, infix_valued, group_valued, apply_valued.
  - intros x b H. constructor; auto.
  - intros x b H r Hr. constructor; auto.
  - split; [|discriminate]. intros l t u vs _ B W. cbn [plain_body] in B. subst l. inversion W; subst. constructor.
  - intros a H. split; [|intros a' E; injection E as <-; exact H]. intros l t u vs P B W. cbn [plain_body proper_body] in *. destruct B as (n & -> & B). inversion W; subst. cbn [List.app].
    constructor; [apply (proj1 H n P B); assumption|]. eapply plain_no_comma; eauto.
  - intros a H r Hr. split; [|discriminate]. intros l t u vs P B W. cbn [plain_body proper_body] in *. destruct B as (m & l' & -> & M & R). destruct P as [Pa Pr]. destruct (plain_chain _ _ R) as (ts & ms & S & O & Q).
    inversion W; subst. cbn [List.app]. eapply inside_some; [apply S| |].
    + eapply no_heads; [|eassumption]. constructor; auto.
    + constructor; [apply (proj1 H m Pa M); assumption|]. apply (valued_list (operands r)); auto. apply list_operands. exact Pr.
Qed.
End Value.

(** ** Text *)
Lemma parse_sane : forall o dbg b input l s', 0 < o_tab_width o -> parse_cst_raw o dbg keep b input = Ok (l, s') -> Forall sane l.
Proof.
  intros o dbg b input l s' Ht E. destruct (parse_facts o dbg keep b input l s' Ht keep_ok E) as (s0 & us & z' & F1 & F2 & F3 & F4 & F5 & F6 & F7 & F8 & F9 & F10 & F11 & F12 & _).
  destruct F12 as (g & Hm & F12). apply mended_keep in Hm. subst g. pose proof (row_trivia _ _ _ _ F12) as T. pose proof (row_kind _ _ _ _ F12) as K.
  assert (G : Forall good_leaf (leaves l)) by (rewrite Forall_forall in *; intros t Hin; split; auto). clear - F9 G.
  induction F9 as [|n l S F9 IH]; constructor; unfold leaves in G; cbn [flat_map] in G; apply Forall_app in G as [G1 G2]; auto. split; auto.
Qed.
Lemma seq_plain : forall es l l', Forall sane l -> Forall2 shows es (parts l) -> aggregate_cst_seq l = Ok l' -> Forall2 plain es l'.
Proof.
  intros es l l' S H A. pose proof (sane_parts _ S) as C. apply sane_list in S as [S1 S2]. pose proof (agg_parts _ _ A S1 S2) as F. clear - C H F. revert es H.
  induction F as [|n n' ns ns' A F IH]; intros es H; inversion H as [|e ? es' ? H1 H2]; subst; constructor; apply Forall_cons_iff in C as [C1 C2]; auto. eapply (proj1 agg_plain); eauto.
Qed.
Lemma program_plain : forall o dbg es input l s', 0 < o_tab_width o -> proper_program es -> spells 0 true (program_words es) input -> parse_cst_seq o dbg NotScript input = Ok (l, s') ->
  parse_cst_raw o dbg keep NotScript input = Ok (l, s') /\ Forall sane l /\ Forall2 shows es (parts l).
Proof.
  intros o dbg es input l s' Ht P S H. destruct (public_patched _ _ _ _ _ _ Ht H) as (l0 & E & _). pose proof (program_shows _ _ _ _ _ _ _ Ht P S E) as Sn.
  pose proof (complete_parts _ _ P Sn) as C. pose proof (parse_sane _ _ _ _ _ _ Ht E) as N. pose proof E as E0. apply (proj2 (public_complete _ _ _ _ _ _ Ht C)) in E. rewrite E in H. injection H as <-. auto.
Qed.
Lemma program_proper : forall es, proper_program es -> Forall proper es.
Proof. induction es as [|e es IH]; intros H; constructor; destruct H as (H & _ & R); auto. Qed.

(** ** Abstraction returns *)
Lemma at_kind : forall k p, as_binary k = Some (p, BOP_CodeParser_BinaryAt) -> k = TK_At \/ k = TK_LongName_InvisibleApplication.
Proof.
  intros k p H. unfold as_binary in H. destruct (infix_of k) eqn:E; try discriminate H. assert (op = BOP_CodeParser_BinaryAt) by congruence. subst op.
  unfold infix_of in E. destruct (assoc k INFIX_PARSELETS) as [v|] eqn:A; [|discriminate E]. apply ParserProofs.assoc_in in A. subst v.
  assert (X : forallb (fun r => match snd r with IP_BinaryOperator _ o => if o =? BOP_CodeParser_BinaryAt then if fst r =? TK_At then true else fst r =? TK_LongName_InvisibleApplication else true | _ => true end) INFIX_PARSELETS = true) by (vm_compute; reflexivity).
  pose proof (proj1 (forallb_forall _ _) X _ A) as Y. cbn beta in Y. cbn [fst snd] in Y. rewrite Z.eqb_refl in Y. destruct (Z.eqb_spec k TK_At); [auto|]. right. apply Z.eqb_eq. exact Y.
Qed.
Section Returns.
Variable w : world.
Variable o : aopts.
Hypothesis Hr : a_dbg o = false.
Definition fit_words (l : list SpecPrint.word) : Prop := q_infix_binary_at o = true -> Forall (fun x : SpecPrint.word => fst x <> TK_LongName_InvisibleApplication) l.
Lemma fit_app : forall a b, fit_words (a ++ b) -> fit_words a /\ fit_words b.
Proof. intros a b H. split; intros Q; specialize (H Q); apply Forall_app in H; tauto. Qed.
Lemma fit_cons : forall x b, fit_words (x :: b) -> fit_words [x] /\ fit_words b.
Proof. intros x b H. apply (fit_app [x] b H). Qed.
Definition tranquil (n : cst) : Prop := Forall (fun m => ~ trouble o m) (nodes n).
Lemma tranquil_node : forall n, ~ trouble o n -> Forall tranquil (children n) -> tranquil n.
Proof.
  intros n H C. unfold tranquil. rewrite nodes_subnodes. constructor; [exact H|]. apply Forall_forall. intros m Hm. apply in_flat_map in Hm as (c & Hc & Hm). rewrite Forall_forall in C. specialize (C c Hc). unfold tranquil in C. rewrite Forall_forall in C. auto.
Qed.
Lemma tranquil_word : forall x n, is_word x n -> tranquil n /\ hollow n = false.
Proof. intros x n (t & -> & _). split; [|reflexivity]. apply tranquil_node; [intros X; inversion X|constructor]. Qed.
Definition easy (n : cst) : Prop := tranquil n /\ hollow n = false.
Definition settled (e : expr) : Prop :=
  (forall n, fit_words (words e) -> plain e n -> (forall v, worth w e v -> easy n) /\ (forall k x v, primes e k x -> worth w x v -> tranquil n)) /\
  (forall t b u, e = SpecPrint.Group t b u -> forall l vs, fit_words (body_words b) -> plain_body b l -> worth_inside w b vs -> Forall tranquil l).
Definition settled_body (b : body) : Prop :=
  (forall l vs, fit_words (body_words b) -> plain_body b l -> worth_inside w b vs -> Forall tranquil l) /\ (forall a, b = Single a -> settled a).
Lemma short_body : forall b l, plain_body b l -> (length l <= 1)%nat.
Proof. intros [|a|a r] l H; cbn [plain_body] in H; [subst; cbn; lia|destruct H as (n & -> & _)|destruct H as (m & l' & -> & _)]; cbn; lia. Qed.
Lemma fit_tail : forall r, fit_words (tail_words r) -> Forall (fun e => fit_words (words e)) (operands r).
Proof.
  induction r as [x b|x b r IH]; intros H; cbn [tail_words] in H; apply fit_app in H as [_ H]; [repeat constructor; exact H|]. apply fit_app in H as [H1 H2]. constructor; [exact H1|]. apply IH. exact H2.
Qed.
Lemma settled_tail : forall r l vs, Forall settled (operands r) -> fit_words (tail_words r) -> plain_tail r l -> Forall2 (worth w) (operands r) vs -> Forall easy l.
Proof.
  intros r l vs H F. apply fit_tail in F. revert l vs H F. induction r as [x b|x b r IH]; intros l vs H F P W; cbn [plain_tail] in P.
  - destruct P as (t & m & -> & T & M). inversion W; subst. apply Forall_cons_iff in H as [H _]. apply Forall_cons_iff in F as [F _]. constructor; [eapply tranquil_word; eauto|]. constructor; [|constructor]. destruct H as [H _]. apply (proj1 (H m F M) y). assumption.
  - destruct P as (t & m & l' & -> & T & M & R). inversion W; subst. apply Forall_cons_iff in H as [H Hr']. apply Forall_cons_iff in F as [F Fr]. constructor; [eapply tranquil_word; eauto|]. constructor; [|eapply IH; eauto]. destruct H as [H _]. apply (proj1 (H m F M) y). assumption.
Qed.
Lemma easy_tranquil : forall l, Forall easy l -> Forall tranquil l.
Proof. intros l H. eapply Forall_impl; [|exact H]. intros n [X _]. exact X. Qed.
Lemma easy_child : forall ch k a, Forall easy ch -> after_separator ch k a -> hollow a = false.
Proof. intros ch k a H E. apply nth_error_In in E. rewrite Forall_forall in H. apply H. exact E. Qed.

Ltac calm := let X := fresh in intros X; inversion X; subst; clear X; try congruence; try (exfalso; match goal with H : ~ In _ _ |- _ => apply H; cbn [In]; tauto end); try (match goal with H : _ = _ \/ _ |- _ => destruct H; congruence end).

Lemma leaf_settled : forall x, settled (Leaf x).
Proof.
  intros x. split; [|discriminate]. intros n F H. cbn [plain] in H. apply tranquil_word in H as [H1 H2]. split; [intros; split; auto|auto].
Qed.
Lemma prefix_settled : forall x a, settled a -> settled (Prefix x a).
Proof.
  intros x a [IH _]. split; [|discriminate]. intros n F H. split; [|intros k y v Q; inversion Q]. cbn [words] in F. apply fit_cons in F as [_ F].
  cbn [plain] in H. destruct H as (p & op & t & m & E & -> & T & M). destruct (IH m F M) as [IHm _]. pose proof (proj1 (tranquil_word _ _ T)) as T1.
  intros v W. remember (Prefix x a) as e eqn:Ee. destruct W; try discriminate Ee; try (injection Ee as <- <-; rewrite E in H; injection H as -> ->).
  1: destruct (IHm _ W) as [M1 M2]; split; [apply tranquil_node; [calm|constructor; auto]|exact M2].
  4: subst; inversion H.
  all: destruct (IHm _ W) as [M1 M2]; split; [apply tranquil_node; [calm|constructor; auto]|].
  all: cbn [hollow]; try reflexivity.
  match goal with |- (if ?x =? _ then _ else _) = _ => destruct (Z.eqb_spec x PREOP_Minus) as [->|]; [|reflexivity] end. exfalso. apply H0. cbn. tauto.
Qed.
Lemma postfix_settled : forall a x, settled a -> settled (Postfix a x).
Proof.
  intros a x [IH _]. split; [|discriminate]. intros n F H. cbn [words] in F. apply fit_app in F as [F _]. cbn [plain] in H. destruct H as (p & op & t & m & E & -> & T & M). destruct (IH m F M) as [IHm IHp].
  pose proof (proj1 (tranquil_word _ _ T)) as T1.
  assert (Z : forall k y v, primes (Postfix a x) k y -> worth w y v -> tranquil (Op KPostfix op [m; t])).
  { intros k y v Q W. apply tranquil_node; [calm|]. constructor; [|constructor; auto]. inversion Q; subst; [apply (IHm _ W)|eapply IHp; eauto]. }
  split; [|exact Z].
  intros v W. remember (Postfix a x) as e eqn:Ee. destruct W; try discriminate Ee; try (injection Ee as <- <-; rewrite E in H; injection H as -> ->).
  - split; [|reflexivity]. apply tranquil_node; [calm|]. constructor; [apply (IHm _ W)|constructor; auto].
  - split; [|reflexivity]. apply tranquil_node; [calm|]. constructor; [apply (IHm _ W)|constructor; auto].
  - subst. split; [|reflexivity]. eapply Z; eauto.
Qed.
Lemma binary_settled : forall a x b, settled a -> settled b -> settled (Binary a x b).
Proof.
  intros a x b [IHa _] [IHb _]. split; [|discriminate]. intros n F H. split; [|intros k y v Q; inversion Q]. cbn [words] in F. apply fit_app in F as [Fa F]. apply fit_cons in F as [Fx Fb].
  cbn [plain] in H. destruct H as (p & op & l & t & r & E & -> & L & T & R). destruct (IHa l Fa L) as [IHl _]. destruct (IHb r Fb R) as [IHr _]. pose proof (proj1 (tranquil_word _ _ T)) as T1.
  assert (Z : forall v v', op <> BOP_Put -> op <> BOP_PutAppend -> worth w a v -> worth w b v' -> easy (Op KBinary op [l; t; r])).
  { intros v v' N1 N2 Wa Wb. split; [|reflexivity]. apply tranquil_node; [|constructor; [apply (IHl _ Wa)|constructor; [exact T1|constructor; [apply (IHr _ Wb)|constructor]]]].
    intros X. inversion X; subst; try congruence; try (match goal with H : _ = _ \/ _ = _ |- _ => destruct H; congruence end).
    destruct T as (t' & Et & Ex). injection Et as <-. subst x. cbn [fst] in E. apply at_kind in E as [E|E]; [congruence|]. apply Forall_cons_iff in Fx as [Fx _]; auto. }
  intros v W. remember (Binary a x b) as e eqn:Ee. destruct W; try discriminate Ee; try (injection Ee as -> -> ->; rewrite E in H; injection H as <- ->).
  all: try (apply (Z _ _) with (3 := W1) (4 := W2); discriminate).
  - subst. inversion H.
  - apply (Z _ _) with (3 := W1) (4 := W2); intros ->; apply H0; cbn [In]; tauto.
Qed.
Lemma infix_settled : forall a r, settled a -> Forall settled (operands r) -> settled (Infix a r).
Proof.
  intros a r [IHa _] IHr. split; [|discriminate]. intros n F H. split; [|intros k y v Q; inversion Q]. cbn [words] in F. apply fit_app in F as [Fa Fr].
  cbn [plain] in H. destruct H as (p & op & m & l & E & -> & M & R). destruct (IHa m Fa M) as [IHm _].
  assert (Z : forall v vs, worth w a v -> Forall2 (worth w) (operands r) vs -> easy (Op KInfix op (m :: l))).
  { intros v vs W1 W2. assert (C : Forall easy (m :: l)) by (constructor; [apply (IHm _ W1)|eapply settled_tail; eauto]). split; [|reflexivity]. apply tranquil_node; [|apply easy_tranquil; exact C].
    intros X. inversion X; subst; try congruence. match goal with K : after_separator _ _ _ |- _ => pose proof (easy_child _ _ _ C K) end. congruence. }
  intros v W. remember (Infix a r) as e eqn:Ee. destruct W; try discriminate Ee; try (injection Ee as -> ->; eapply Z; eauto; fail). subst. inversion H.
Qed.
Lemma group_settled : forall x b y, settled_body b -> settled (SpecPrint.Group x b y).
Proof.
  intros x b y [IH IH1]. split; [|intros x' b' y' E; injection E as _ <- _; exact IH]. intros n F H. split; [|intros k z v Q; inversion Q].
  cbn [words] in F. apply fit_cons in F as [_ F]. apply fit_app in F as [F _].
  cbn [plain] in H. destruct H as (u & op & t & l & v0 & E & -> & T & B & V0). pose proof (proj1 (tranquil_word _ _ T)) as T1. pose proof (proj1 (tranquil_word _ _ V0)) as T2.
  assert (Z : Forall tranquil l -> tranquil (Op KGroup op (t :: l ++ [v0]))).
  { intros C. apply tranquil_node; [|constructor; [exact T1|]; apply Forall_app; split; [exact C|constructor; auto]].
    pose proof (short_body _ _ B) as S. intros X. inversion X; subst. destruct l as [|l0 [|l1 l]]; [discriminate|discriminate|cbn in S; lia]. }
  intros v W. remember (SpecPrint.Group x b y) as e eqn:Ee. destruct W; try discriminate Ee.
  - injection Ee as <- <- <-. assert (C : Forall tranquil l) by (eapply IH; eauto; constructor; eauto). split; [exact (Z C)|].
    rewrite H in E. vm_compute in E. injection E as _ <-. cbn [plain_body] in B. destruct B as (n & -> & B). cbn [body_words] in F. cbn [List.app hollow]. rewrite Z.eqb_refl.
    destruct (IH1 _ eq_refl) as [K _]. apply (proj1 (K n F B) _ W).
  - injection Ee as <- <- <-. rewrite E in H. injection H as <- <-. split; [apply Z; eapply IH; eauto|]. cbn [hollow]. destruct (Z.eqb_spec op GOP_CodeParser_GroupParen) as [->|]; [|reflexivity].
    exfalso. apply H0. cbn [In]. tauto.
  - subst. inversion H.
Qed.
Lemma apply_settled : forall h x b y, settled h -> settled_body b -> settled (Apply h x b y).
Proof.
  intros h x b y [IHh _] [IH IH1]. split; [|discriminate]. intros n F H. split; [|intros k z v Q; inversion Q].
  cbn [words] in F. apply fit_app in F as [Fh F]. apply fit_cons in F as [_ F]. apply fit_app in F as [F _].
  cbn [plain] in H. destruct H as (u & op & op' & m & t & l & v0 & E & E' & -> & M & T & B & V0). destruct (IHh m Fh M) as [IHm _]. pose proof (proj1 (tranquil_word _ _ T)) as T1. pose proof (proj1 (tranquil_word _ _ V0)) as T2.
  assert (Z : forall f, worth w h f -> Forall tranquil l -> easy (Call (Aggregate m) false op' (t :: l ++ [v0]))).
  { intros f W C. split; [|reflexivity]. apply tranquil_node; [|cbn [children]; constructor; [apply (IHm _ W)|constructor; [exact T1|]; apply Forall_app; split; [exact C|constructor; auto]]].
    pose proof (short_body _ _ B) as S. intros X. inversion X; subst. destruct l as [|l0 [|l1 l]]; [discriminate|discriminate|cbn in S; lia]. }
  intros v W. remember (Apply h x b y) as e eqn:Ee. destruct W; try discriminate Ee.
  - injection Ee as -> -> -> ->. eapply Z; eauto.
  - injection Ee as <- <- <- <-. eapply Z; eauto. cbn [plain_body] in B. destruct B as (n & -> & B). constructor; [|constructor]. cbn [plain] in B. destruct B as (u2 & o2 & t2 & l2 & v2 & E2 & -> & TT & B2 & VV).
    cbn [body_words words] in F. apply fit_cons in F as [_ F]. apply fit_app in F as [F _].
    assert (C : Forall tranquil l2) by (destruct (IH1 _ eq_refl) as [_ K]; eapply K; eauto).
    apply tranquil_node; [|constructor; [eapply tranquil_word; eauto|]; apply Forall_app; split; [exact C|constructor; auto; eapply tranquil_word; eauto]].
    pose proof (short_body _ _ B2) as S. intros X. inversion X; subst. destruct l2 as [|l0 [|l1 l2]]; [discriminate|discriminate|cbn in S; lia].
  - injection Ee as -> -> -> ->. eapply Z; eauto.
  - injection Ee as -> -> -> ->. eapply Z; eauto.
  - subst. inversion H.
Qed.
Lemma all_settled : (forall e, settled e) /\ (forall r, Forall settled (operands r)) /\ (forall b, settled_body b).
Proof.
  apply expr_ind2; auto using leaf_settled, prefix_settled, postfix_settled, binary_settled, infix_settled, group_settled, apply_settled.
  - intros x b H. constructor; auto.
  - intros x b H r Hr'. constructor; auto.
  - split; [|discriminate]. intros l vs _ B W. cbn [plain_body] in B. subst l. constructor.
  - intros a H. split; [|intros a' E; injection E as <-; exact H]. intros l vs F B W. cbn [plain_body body_words] in *. destruct B as (n & -> & B). inversion W; subst. constructor; [|constructor]. destruct H as [H _]. apply (proj1 (H n F B) v). assumption.
  - intros a [H _] r Hs. split; [|discriminate]. intros l vs F B W. cbn [plain_body body_words] in *. destruct B as (m & l' & -> & M & R). apply fit_app in F as [Fa Fr]. inversion W; subst. constructor; [|constructor].
    apply tranquil_node; [intros X; inversion X|]. constructor; [apply (proj1 (H m Fa M) v); assumption|]. apply easy_tranquil. eapply settled_tail; eauto.
Qed.
End Returns.

Lemma value_of_text : forall w, lawful w -> forall o dbg a es input l s' asts, 0 < o_tab_width o -> (forall s, SpecValue.bare s -> a_fmt a s = 34 :: s ++ [34]) ->
  proper_program es -> spells 0 true (program_words es) input -> parse_cst_seq o dbg NotScript input = Ok (l, s') -> to_ast a l = Ok asts ->
  Forall2 (fun e t => forall v, worth w e v -> denotes w t v) es asts.
Proof.
  intros w L o dbg a es input l s' asts Ht Q P S H E. destruct (program_plain _ _ _ _ _ _ Ht P S H) as (_ & C & Sh). unfold to_ast in E. apply rbind_Ok in E as (l' & A & E). apply mapr_Ok in E.
  pose proof (seq_plain _ _ _ C Sh A) as F. pose proof (program_proper _ P) as Pe. clear - L Q E F Pe. revert asts E. induction F as [|e n es ns N F IH]; intros asts E; inversion E as [|? t ? ts E1 E2]; subst; constructor; apply Forall_cons_iff in Pe as [P1 P2]; auto.
  intros v W. eapply abstract_value; eauto. destruct (proj1 (worth_means w) e) as [K _]. apply (proj1 (K n P1 N) v W).
Qed.
Lemma text_has_value : forall w, lawful w -> forall o dbg a es vs input, 0 < o_tab_width o -> (forall s, SpecValue.bare s -> a_fmt a s = 34 :: s ++ [34]) ->
  proper_program es -> spells 0 true (program_words es) input -> Forall2 (worth w) es vs ->
  well_formed_no_bom input -> ~ has_surrogate_escape input -> (dbg = true -> never_lexed o input TK_LongName_InvisibleComma) ->
  a_dbg a = false -> (q_infix_binary_at a = true -> Forall (fun x => fst x <> TK_LongName_InvisibleApplication) (program_words es)) ->
  exists l s' asts, parse_cst_seq o dbg NotScript input = Ok (l, s') /\ to_ast a l = Ok asts /\ Forall2 (denotes w) asts vs.
Proof.
  intros w L o dbg a es vs input Ht Q P S W Wf U D Hd Hq. destruct (public_returns o dbg es input Ht P S U D) as (l & s' & E & _). destruct (program_plain _ _ _ _ _ _ Ht P S E) as (R & C & Sh).
  destruct (to_ast_total o dbg NotScript input l s' a Ht Wf R) as (l' & A & T). pose proof (seq_plain _ _ _ C Sh A) as F.
  assert (X : exists asts, to_ast a l = Ok asts).
  { apply T. assert (Hq' : Forall (fun e => fit_words a (words e)) es).
    { clear - Hq. induction es as [|e es IH]; constructor.
      - intros X. specialize (Hq X). destruct es; [exact Hq|]. cbn [program_words] in Hq. apply Forall_app in Hq. tauto.
      - apply IH. intros X. specialize (Hq X). destruct es; [constructor|]. cbn [program_words] in Hq. apply Forall_app in Hq as [_ Hq]. apply Forall_cons_iff in Hq. tauto. }
    clear - Hd Hq' F W. intros n Hn ns m Hns Hm. apply preorder_det in Hns. subst ns. revert vs W. induction F as [|e n' es ns N F IH]; [contradiction|]. intros vs W. inversion W as [|? v ? vs' W1 W2]; subst. apply Forall_cons_iff in Hq' as [Q1 Q2].
    destruct Hn as [->|Hn]; [|eapply IH; eauto]. destruct (proj1 (all_settled w a Hd) e) as [K _]. destruct (proj1 (K n Q1 N) v W1) as [X _]. unfold tranquil in X. rewrite Forall_forall in X. auto. }
  destruct X as (asts & X). exists l, s', asts. split; [exact E|]. split; [exact X|]. pose proof (value_of_text w L o dbg a es input l s' asts Ht Q P S E X) as G.
  clear - G W. revert vs W. induction G as [|e t es ts G1 G IH]; intros vs W; inversion W; subst; constructor; auto.
Qed.

(** ** An expression has one value *)
Lemma primes_once : forall e k x, primes e k x -> forall k' x', primes e k' x' -> k' = k /\ x' = x.
Proof.
  intros e k x H. induction H as [e t K N|m k e t H IH K]; intros k' x' H'; inversion H' as [e1 t1 K1 N1|m1 k1 e1 t1 H1 K1]; subst.
  - auto.
  - exfalso. inversion H1; subst; eapply N; eauto.
  - exfalso. inversion H; subst; eapply N1; eauto.
  - destruct (IH _ _ H1) as [-> ->]. auto.
Qed.
Lemma compared_once : forall x s s', compared x s -> compared x s' -> s = s'.
Proof.
  intros x s s' (ks & H1 & H2) (ks' & H3 & H4). set (T := PLAIN_COMPARISONS ++ OTHER_COMPARISONS ++ VECTOR_COMPARISONS) in *.
  assert (X : forallb (fun p => forallb (fun q => if existsb (fun k => zin k (snd q)) (snd p) then String.eqb (fst p) (fst q) else true) T) T = true) by (vm_compute; reflexivity).
  pose proof (proj1 (forallb_forall _ _) X _ H1) as Y. cbn beta in Y. pose proof (proj1 (forallb_forall _ _) Y _ H3) as Z. cbn beta in Z. cbn [fst snd] in Z.
  replace (existsb (fun k => zin k ks') ks) with true in Z; [apply String.eqb_eq; exact Z|]. symmetry. apply existsb_exists. exists (fst x). split; [exact H2|apply zin_In; exact H4].
Qed.
Lemma all_compared_once : forall l ss ss', Forall2 compared l ss -> Forall2 compared l ss' -> ss = ss'.
Proof. intros l ss ss' H. revert ss'. induction H as [|x s l ss C _ IH]; intros ss' H'; inversion H'; subst; [reflexivity|]. f_equal; [eapply compared_once; eauto|auto]. Qed.
Section Once.
Variable w : world.
Definition single_body (b : body) : Prop := forall vs vs', worth_inside w b vs -> worth_inside w b vs' -> vs = vs'.
Definition single (e : expr) : Prop := (forall v v', worth w e v -> worth w e v' -> v = v') /\
  (forall k x v v', primes e k x -> worth w x v -> worth w x v' -> v = v') /\ (forall t b u, e = SpecPrint.Group t b u -> single_body b).
Lemma single_list : forall es vs vs', Forall single es -> Forall2 (worth w) es vs -> Forall2 (worth w) es vs' -> vs = vs'.
Proof. intros es vs vs' H F. revert vs'. induction F as [|e v es vs W F IH]; intros vs' F'; inversion F'; subst; [reflexivity|]. apply Forall_cons_iff in H as [[H _] Hr]. f_equal; auto. Qed.
Ltac same_op := repeat match goal with
  | A : as_prefix ?k = Some _, B : as_prefix ?k = Some _ |- _ => rewrite A in B; injection B as ? ?; subst
  | A : as_postfix ?k = Some _, B : as_postfix ?k = Some _ |- _ => rewrite A in B; injection B as ? ?; subst
  | A : as_binary ?k = Some _, B : as_binary ?k = Some _ |- _ => rewrite A in B; injection B as ? ?; subst
  | A : as_infix ?k = Some _, B : as_infix ?k = Some _ |- _ => rewrite A in B; injection B as ? ?; subst
  | A : prefix_of ?k = PP_Group _ _, B : prefix_of ?k = PP_Group _ _ |- _ => rewrite A in B; injection B as ? ?; subst
  end.
Ltac barred := match goal with H : ~ In _ _ |- _ => exfalso; apply H; cbn [In]; tauto end.
Lemma leaf_single : forall x, single (Leaf x).
Proof.
  intros x. split; [|split; [intros k y v v' Q; inversion Q|discriminate]]. intros v v' W W'.
  assert (X : forall k u, stands_for w k = Some u -> k <> TK_Symbol /\ k <> TK_Integer /\ k <> TK_Real /\ k <> TK_String).
  { intros k u E. repeat split; intros ->; discriminate E. }
  inversion W; subst; try (exfalso; match goal with H : primes (Leaf _) _ _ |- _ => inversion H end); inversion W'; subst; try (exfalso; match goal with H : primes (Leaf _) _ _ |- _ => inversion H end); try reflexivity; try congruence.
  all: try (match goal with H : _ = _ \/ _ = _ |- _ => destruct H; discriminate end).
  all: try (match goal with H : stands_for w _ = Some _ |- _ => exfalso; pose proof (X _ _ H); intuition congruence end).
Qed.
Lemma prefix_single : forall x a, single a -> single (Prefix x a).
Proof.
  intros x a [IH _]. split; [|split; [intros k y v v' Q; inversion Q|discriminate]]. intros v v' W W'.
  inversion W; subst; try (exfalso; match goal with H : primes (Prefix _ _) _ _ |- _ => inversion H end); inversion W'; subst; try (exfalso; match goal with H : primes (Prefix _ _) _ _ |- _ => inversion H end); same_op; try discriminate; try barred.
  all: repeat f_equal; auto.
Qed.
Lemma postfix_single : forall a x, single a -> single (Postfix a x).
Proof.
  intros a x (IH & IHp & _).
  assert (Z : forall k y v v', primes (Postfix a x) k y -> worth w y v -> worth w y v' -> v = v') by (intros k y v v' Q W W'; inversion Q; subst; [auto|eapply IHp; eauto]).
  assert (K : forall k y, primes (Postfix a x) k y -> as_postfix (fst x) = Some (snd (POSTOP_Derivative, fst (match as_postfix TK_SingleQuote with Some p => p | None => (0, 0) end)), POSTOP_Derivative)).
  { intros k y Q. assert (E : fst x = TK_SingleQuote) by (inversion Q; subst; assumption). rewrite E. vm_compute. reflexivity. }
  split; [|split; [exact Z|discriminate]]. intros v v' W W'.
  inversion W; subst; inversion W'; subst; same_op; try discriminate; try barred.
  all: try (match goal with H : primes _ _ _ |- _ => pose proof (K _ _ H); same_op; first [discriminate|barred] end).
  - repeat f_equal; auto.
  - repeat f_equal; auto.
  - match goal with H : primes _ _ _, H' : primes _ _ _ |- _ => destruct (primes_once _ _ _ H _ _ H') as [-> ->] end. f_equal. f_equal. eapply Z; eauto.
Qed.
Lemma binary_single : forall a x b, single a -> single b -> single (Binary a x b).
Proof.
  intros a x b [IHa _] [IHb _]. split; [|split; [intros k y v v' Q; inversion Q|discriminate]]. intros v v' W W'.
  inversion W; subst; try (exfalso; match goal with H : primes (Binary _ _ _) _ _ |- _ => inversion H end); inversion W'; subst; try (exfalso; match goal with H : primes (Binary _ _ _) _ _ |- _ => inversion H end); same_op; try discriminate; try barred.
  all: repeat f_equal; auto.
Qed.
Lemma infix_single : forall a r, single a -> Forall single (operands r) -> single (Infix a r).
Proof.
  intros a r [IHa _] IHr. split; [|split; [intros k y v v' Q; inversion Q|discriminate]]. intros v v' W W'.
  inversion W; subst; try (exfalso; match goal with H : primes (Infix _ _) _ _ |- _ => inversion H end); inversion W'; subst; try (exfalso; match goal with H : primes (Infix _ _) _ _ |- _ => inversion H end); same_op; try discriminate; try barred.
  all: match goal with A : worth w ?a ?x, B : worth w ?a ?y |- _ => rewrite (IHa _ _ A B) end.
  all: match goal with A : Forall2 (worth w) ?l ?x, B : Forall2 (worth w) ?l ?y |- _ => rewrite (single_list _ _ _ IHr A B) end; try reflexivity.
  match goal with A : Forall2 compared _ ?x, B : Forall2 compared _ ?y |- _ => rewrite (all_compared_once _ _ _ A B) end. reflexivity.
Qed.
Lemma group_single : forall x b y, (single_body b /\ forall a, b = Single a -> single a) -> single (SpecPrint.Group x b y).
Proof.
  intros x b y [IH IH1]. split; [|split; [intros k z v v' Q; inversion Q|intros t b' u E; injection E as _ <- _; exact IH]]. intros v v' W W'.
  assert (X : forall k u op, k = TK_OpenParen -> prefix_of k = PP_Group u op -> op = GOP_CodeParser_GroupParen) by (intros k u op E1 E2; rewrite E1 in E2; vm_compute in E2; injection E2 as _ <-; reflexivity).
  inversion W; subst; try (exfalso; match goal with H : primes (SpecPrint.Group _ _ _) _ _ |- _ => inversion H end); inversion W'; subst; try (exfalso; match goal with H : primes (SpecPrint.Group _ _ _) _ _ |- _ => inversion H end).
  all: try (match goal with A : fst ?x = TK_OpenParen, B : prefix_of (fst ?x) = PP_Group _ _ |- _ => pose proof (X _ _ _ A B); subst; barred end).
  - apply (IH1 _ eq_refl); auto.
  - same_op. f_equal. apply IH; auto.
Qed.
Lemma apply_single : forall h x b y, single h -> (single_body b /\ forall a, b = Single a -> single a) -> single (Apply h x b y).
Proof.
  intros h x b y [IHh _] [IH IH1]. split; [|split; [intros k z v v' Q; inversion Q|discriminate]]. intros v v' W W'.
  inversion W; subst; try (exfalso; match goal with H : primes (Apply _ _ _ _) _ _ |- _ => inversion H end); inversion W'; subst; try (exfalso; match goal with H : primes (Apply _ _ _ _) _ _ |- _ => inversion H end).
  all: try (match goal with A : fst ?x = _, B : fst ?x = _ |- _ => rewrite A in B; discriminate B end).
  all: try (match goal with A : ~ in_brackets _ |- _ => exfalso; apply A; do 3 eexists; split; [reflexivity|assumption] end).
  all: match goal with A : worth w ?h ?x, B : worth w ?h ?y |- _ => rewrite (IHh _ _ A B) end.
  all: try (match goal with A : worth_inside w ?b ?x, B : worth_inside w ?b ?y |- _ => rewrite (IH _ _ A B) end; reflexivity).
  destruct (IH1 _ eq_refl) as (_ & _ & K). specialize (K _ _ _ eq_refl). f_equal. f_equal. apply K; auto.
Qed.
Lemma worth_once : (forall e, single e) /\ (forall r, Forall single (operands r)) /\ (forall b, single_body b /\ forall a, b = Single a -> single a).
Proof.
  apply expr_ind2; auto using leaf_single, prefix_single, postfix_single, binary_single, infix_single, group_single, apply_single.
  - intros x b H. constructor; auto.
  - intros x b H r Hr. constructor; auto.
  - split; [|discriminate]. intros vs vs' W W'. inversion W; inversion W'; subst; reflexivity.
  - intros a H. split; [|intros a' E; injection E as <-; exact H]. intros vs vs' W W'. inversion W; subst; inversion W'; subst. f_equal. apply H; auto.
  - intros a [H _] r Hr. split; [|discriminate]. intros vs vs' W W'. inversion W; subst; inversion W'; subst. f_equal; [auto|eapply single_list; eauto].
Qed.
End Once.
