(** Consequences of ParserPrint: spelled text is complete, read in one way only, and every
    expression can be spelled with enough brackets. *)
From Coq Require Import String ZArith List Bool Lia.
From Verif Require Import Base Source SpecText SpecReader SpecTokenizer CharDecoder LongNames GenTokenKind TokenKind Tokenizer GenPrec GenOps GenParselets Parselets Cst SpecCst CstProofs Parser SpecParser SpecParse SpecLex SpecReparse SpecRepair
  ParserLogic ParserRules ParserProofs ParserResults ParserTheorems ErrorReparse RepairProofs ParserPrint SpecPrint.
Import ListNotations.
Local Open Scope Z_scope.

(** ** Nothing is missing *)
Definition closed (n : cst) : Prop := Forall (fun n => ~ lacks_closer n) (nodes n) /\ Forall (fun t => ~ unterminated_kind (t_kind t)) (toks n).
Lemma closed_op : forall k o ch, k <> KGroupMissingCloser -> Forall closed ch -> closed (Op k o ch).
Proof.
  intros k o ch Hk H. split.
  - cbn [nodes]. constructor.
    + intros [(op & c & E)|(h & op & c & E)]; [|discriminate E]. injection E as E _ _. contradiction.
    + apply Forall_flat_map. eapply Forall_impl; [|exact H]. intros x [A _]. exact A.
  - cbn [toks]. apply Forall_flat_map. eapply Forall_impl; [|exact H]. intros x [_ A]. exact A.
Qed.
Lemma closed_call : forall hd o ch, Forall closed hd -> Forall closed ch -> closed (Call (Concrete hd) false o ch).
Proof.
  intros hd o ch H1 H2. split.
  - cbn [nodes]. constructor; [intros [(op & c & E)|(h & op & c & E)]; discriminate E|].
    apply Forall_app; split; apply Forall_flat_map; (eapply Forall_impl; [|eassumption]); intros x [A _]; exact A.
  - cbn [toks]. apply Forall_app; split; apply Forall_flat_map; (eapply Forall_impl; [|eassumption]); intros x [_ A]; exact A.
Qed.
Lemma closed_tok : forall t, ~ unterminated_kind (t_kind t) -> closed (Tok t).
Proof. intros t H. split; cbn [nodes toks]; constructor; auto. intros [(op & c & E)|(h & op & c & E)]; discriminate E. Qed.
Lemma closed_parts : forall l, Forall closed (parts l) -> Forall closed l.
Proof.
  intros l. unfold parts. induction l as [|n l IH]; intros H; constructor.
  - cbn [filter] in H. destruct (trivia_leaf n) eqn:E; cbn [negb] in H; [|inversion H; auto]. destruct n as [t| | | | |]; try discriminate E. apply closed_tok. cbn in E.
    intros [U|[U|[U|U]]]; rewrite U in E; discriminate E.
  - apply IH. cbn [filter] in H. destruct (negb (trivia_leaf n)); auto. inversion H; auto.
Qed.
Lemma closed_complete : forall l, Forall closed l -> complete l.
Proof.
  intros l H. split.
  - eapply Forall_impl; [|exact H]. intros x [A _]. apply everywhere_nodes. exact A.
  - intros ts K. apply all_tokens_leaves in K. subst. apply Forall_flat_map. eapply Forall_impl; [|exact H]. intros x [_ A]. exact A.
Qed.
Lemma unterminated_rows : forall k, unterminated_kind k -> (prefix_of k = PP_PrefixError) /\ (infix_of k = IP_InfixAssertFalse) /\ TokenToCloser k = Closer_AssertFalse /\ k <> TK_Comma.
Proof. intros k [ -> |[ -> |[ -> | -> ]]]; (split; [reflexivity|split; [reflexivity|split; [reflexivity|discriminate]]]). Qed.
Lemma word_closed : forall w n, is_word w n -> ~ unterminated_kind (fst w) -> closed n.
Proof. intros w n (t & -> & <-) H. apply closed_tok. exact H. Qed.
Lemma infix_known : forall k, infix_of k <> IP_InfixAssertFalse -> ~ unterminated_kind k.
Proof. intros k H U. destruct (unterminated_rows _ U) as (_ & X & _). contradiction. Qed.
Lemma prefix_known : forall k, prefix_of k <> PP_PrefixError -> ~ unterminated_kind k.
Proof. intros k H U. destruct (unterminated_rows _ U) as (X & _). contradiction. Qed.
Lemma closer_known : forall v w, bracketed v w -> ~ unterminated_kind (fst w).
Proof. intros v w H U. destruct (unterminated_rows _ U) as (_ & _ & X & _). exact (opener_closer _ _ H X). Qed.
Lemma infix_op_known : forall k p o, as_infix k = Some (p, o) -> ~ unterminated_kind k.
Proof. intros k p o H. apply infix_known. intros E. unfold as_infix in H. rewrite E in H. discriminate H. Qed.
Lemma shows_closed : (forall e n, proper e -> shows e n -> closed n) /\
  (forall r, (forall p o l, proper_tail p o r -> shows_tail r l -> Forall closed l) /\ (forall l, proper_list r -> shows_tail r l -> Forall closed l)) /\
  (forall b l, proper_body b -> shows_body b l -> Forall closed l).
Proof.
  apply expr_ind2.
  - intros w n P S. eapply word_closed; [exact S|]. apply prefix_known. cbn [proper] in P. destruct P as [P|P]; rewrite P; discriminate.
  - intros w a IH n (p & o & Ep & Pb & Pa) (p' & o' & ch & t & m & Eo & -> & Ech & Sw & Sa). apply closed_op; [discriminate|]. apply closed_parts. rewrite Ech.
    constructor; [|constructor; auto]. eapply word_closed; [exact Sw|]. apply prefix_known. intros X. unfold as_prefix in Ep. rewrite X in Ep. discriminate Ep.
  - intros a IH w n (p & o & Ep & Pa & Pe) (p' & o' & ch & t & m & Eo & -> & Ech & Sw & Sa). apply closed_op; [discriminate|]. apply closed_parts. rewrite Ech.
    constructor; auto. constructor; auto. eapply word_closed; [exact Sw|]. apply infix_known. intros X. unfold as_postfix in Ep. rewrite X in Ep. discriminate Ep.
  - intros a IHa w b IHb n (p & o & Ep & Pa & _ & _ & Pb) (p' & o' & ch & x & t & y & Eo & -> & Ech & Sa & Sw & Sb). apply closed_op; [discriminate|]. apply closed_parts. rewrite Ech.
    constructor; auto. constructor; auto. eapply word_closed; [exact Sw|]. apply infix_known. intros X. unfold as_binary in Ep. rewrite X in Ep. discriminate Ep.
  - intros a IHa r [IHr _] n (p & o & Ep & Pa & _ & Pr) (p' & o' & ch & m & l & Eo & -> & Ech & Sa & Sr). apply closed_op; [discriminate|]. apply closed_parts. rewrite Ech. constructor; eauto.
  - intros v b IH w n ((u & o & Eo) & Br & Pb) (u' & o' & ch & t & l & c & Eo' & -> & Ech & Sv & Sb & Sw). apply closed_op; [discriminate|]. apply closed_parts. rewrite Ech.
    constructor; [eapply word_closed; [exact Sv|]; apply prefix_known; rewrite Eo; discriminate|]. apply Forall_app. split; [auto|]. constructor; auto. eapply word_closed; [exact Sw|]. eapply closer_known; eauto.
  - intros h IHh v b IH w n ((u & o & Eo) & Br & Ph & _ & Pb) (u' & o' & o2 & hd & ch & m & t & l & c & Eo' & _ & -> & Ehd & Sh & Ech & Sv & Sb & Sw).
    apply closed_call; apply closed_parts; [rewrite Ehd; constructor; auto|rewrite Ech].
    constructor; [eapply word_closed; [exact Sv|]; apply infix_known; rewrite Eo; discriminate|]. apply Forall_app. split; [auto|]. constructor; auto. eapply word_closed; [exact Sw|]. eapply closer_known; eauto.
  - intros w b IH. split.
    + intros p o l (((q & J) & _) & _ & Pb) (t & m & -> & Sw & Sb). constructor; [eapply word_closed; [exact Sw|]; eapply infix_op_known; eauto|constructor; auto].
    + intros l (C & Pb) (t & m & -> & Sw & Sb). constructor; [eapply word_closed; [exact Sw|]; rewrite C; intros U; destruct (unterminated_rows _ U) as (_ & _ & _ & X); auto|constructor; auto].
  - intros w b IH r [IH1 IH2]. split.
    + intros p o l (((q & J) & _) & _ & Pb & _ & _ & Pr) (t & m & l' & -> & Sw & Sb & Sr). constructor; [eapply word_closed; [exact Sw|]; eapply infix_op_known; eauto|constructor; eauto].
    + intros l (C & Pb & Pr) (t & m & l' & -> & Sw & Sb & Sr). constructor; [eapply word_closed; [exact Sw|]; rewrite C; intros U; destruct (unterminated_rows _ U) as (_ & _ & _ & X); auto|constructor; eauto].
  - intros l _ ->. constructor.
  - intros a IH l P (n & -> & S). constructor; auto.
  - intros a IH r [_ IHr] l (Pa & Pr) (ch & m & l' & -> & Ech & Sa & Sr). constructor; auto. apply closed_op; [discriminate|]. apply closed_parts. rewrite Ech. constructor; auto.
Qed.

(** ** One reading only *)
Lemma word_eq : forall w w' n, is_word w n -> is_word w' n -> w = w'.
Proof. intros w w' n (t & -> & <-) (t' & E & <-). injection E as ->. reflexivity. Qed.
Lemma chain_table : forallb (fun e : Z * infix_parselet => match snd e with
    | IP_InfixOperator p op => if Z.odd p then false else if op =? IOP_CodeParser_Comma then false else true | _ => true end) INFIX_PARSELETS = true.
Proof. vm_compute. reflexivity. Qed.
Lemma chain_row : forall k p o, as_infix k = Some (p, o) -> Z.odd p = false /\ o <> IOP_CodeParser_Comma.
Proof.
  intros k p o H. unfold as_infix in H. destruct (infix_of k) eqn:E; try discriminate H; injection H as <- <-; [|split; [reflexivity|discriminate]].
  unfold infix_of in E. destruct (assoc k INFIX_PARSELETS) as [v|] eqn:A; [|discriminate E]. apply ParserProofs.assoc_in in A. subst v.
  pose proof (proj1 (forallb_forall _ _) chain_table _ A) as K. cbn [snd] in K. destruct (Z.odd _) eqn:O; [discriminate K|]. destruct (Z.eqb_spec op IOP_CodeParser_Comma); [discriminate K|]. auto.
Qed.
Ltac other S' := cbn [shows] in S'; unfold is_word in S';
  repeat match type of S' with ex _ => destruct S' as [? S'] | _ /\ _ => let X := fresh in destruct S' as [X S']; try discriminate X end; fail.
Ltac same e' S' := destruct e' as [w2|w2 a2|a2 w2|a2 w2 b2|a2 r2|v2 b2 w2|h2 v2 b2 w2]; try (exfalso; other S').
Lemma shows_once : (forall e e' n, proper e -> proper e' -> shows e n -> shows e' n -> e = e') /\
  (forall r, (forall r' p o p' o' l, proper_tail p o r -> proper_tail p' o' r' -> shows_tail r l -> shows_tail r' l -> r = r') /\ (forall r' l, proper_list r -> proper_list r' -> shows_tail r l -> shows_tail r' l -> r = r')) /\
  (forall b b' l, proper_body b -> proper_body b' -> shows_body b l -> shows_body b' l -> b = b').
Proof.
  apply expr_ind2.
  - intros w e' n P P' S S'. destruct S as (t & -> & <-). same e' S'. destruct S' as (t' & E & <-). injection E as ->. reflexivity.
  - intros w a IH e' n (p & o & Ep & Pb & Pa) P' (p' & o' & ch & t & m & Eo & -> & Ech & Sw & Sa) S'. same e' S'.
    destruct P' as (p2 & o2 & _ & _ & Pa2). destruct S' as (p3 & o3 & ch3 & t3 & m3 & _ & En & Ech3 & Sw3 & Sa3). injection En as _ <-. rewrite Ech in Ech3. injection Ech3 as <- <-. f_equal; [eapply word_eq|eapply IH]; eauto.
  - intros a IH w e' n (p & o & Ep & Pa & Pe) P' (p' & o' & ch & t & m & Eo & -> & Ech & Sw & Sa) S'. same e' S'.
    destruct P' as (p2 & o2 & _ & Pa2 & _). destruct S' as (p3 & o3 & ch3 & t3 & m3 & _ & En & Ech3 & Sw3 & Sa3). injection En as _ <-. rewrite Ech in Ech3. injection Ech3 as <- <-. f_equal; [eapply IH|eapply word_eq]; eauto.
  - intros a IHa w b IHb e' n (p & o & Ep & Pa & _ & _ & Pb) P' (p' & o' & ch & x & t & y & Eo & -> & Ech & Sa & Sw & Sb) S'. same e' S'.
    destruct P' as (p2 & o2 & _ & Pa2 & _ & _ & Pb2). destruct S' as (p3 & o3 & ch3 & x3 & t3 & y3 & _ & En & Ech3 & Sa3 & Sw3 & Sb3). injection En as _ <-. rewrite Ech in Ech3. injection Ech3 as <- <- <-. f_equal; [eapply IHa|eapply word_eq|eapply IHb]; eauto.
  - intros a IHa r [IHr _] e' n (p & o & Ep & Pa & _ & Pr) P' (p' & o' & ch & m & l & Eo & -> & Ech & Sa & Sr) S'. same e' S'.
    destruct P' as (p2 & o2 & _ & Pa2 & _ & Pr2). destruct S' as (p3 & o3 & ch3 & m3 & l3 & _ & En & Ech3 & Sa3 & Sr3). injection En as _ <-. rewrite Ech in Ech3. injection Ech3 as <- <-. f_equal; [eapply IHa|eapply IHr]; eauto.
  - intros v b IH w e' n ((u & o & Eo) & Br & Pb) P' (u' & o' & ch & t & l & c & Eo' & -> & Ech & Sv & Sb & Sw) S'. same e' S'.
    destruct P' as (_ & _ & Pb2). destruct S' as (u3 & o3 & ch3 & t3 & l3 & c3 & _ & En & Ech3 & Sv3 & Sb3 & Sw3). injection En as _ <-. rewrite Ech in Ech3. injection Ech3 as <- El. apply app_inj_tail in El as [<- <-].
    f_equal; [eapply word_eq|eapply IH|eapply word_eq]; eauto.
  - intros h IHh v b IH w e' n ((u & o & Eo) & Br & Ph & _ & Pb) P' (u' & o' & o2 & hd & ch & m & t & l & c & Eo' & _ & -> & Ehd & Sh & Ech & Sv & Sb & Sw) S'. same e' S'.
    destruct P' as (_ & _ & Ph2 & _ & Pb2). destruct S' as (u3 & o3 & o4 & hd3 & ch3 & m3 & t3 & l3 & c3 & _ & _ & En & Ehd3 & Sh3 & Ech3 & Sv3 & Sb3 & Sw3). injection En as <- _ <-. rewrite Ehd in Ehd3. injection Ehd3 as <-.
    rewrite Ech in Ech3. injection Ech3 as <- El. apply app_inj_tail in El as [<- <-]. f_equal; [eapply IHh|eapply word_eq|eapply IH|eapply word_eq]; eauto.
  - intros w b IH. split.
    + intros r' p o p' o' l (_ & _ & Pb) P' (t & m & -> & Sw & Sb) S'. destruct r' as [w2 b2|w2 b2 r2].
      * destruct P' as (_ & _ & Pb2). destruct S' as (t2 & m2 & E & Sw2 & Sb2). injection E as <- <-. f_equal; [eapply word_eq|eapply IH]; eauto.
      * destruct S' as (t2 & m2 & l2 & E & _ & _ & S2). injection E as _ _ <-. destruct r2; [destruct S2 as (? & ? & E & _)|destruct S2 as (? & ? & ? & E & _)]; discriminate E.
    + intros r' l (_ & Pb) P' (t & m & -> & Sw & Sb) S'. destruct r' as [w2 b2|w2 b2 r2].
      * destruct P' as (_ & Pb2). destruct S' as (t2 & m2 & E & Sw2 & Sb2). injection E as <- <-. f_equal; [eapply word_eq|eapply IH]; eauto.
      * destruct S' as (t2 & m2 & l2 & E & _ & _ & S2). injection E as _ _ <-. destruct r2; [destruct S2 as (? & ? & E & _)|destruct S2 as (? & ? & ? & E & _)]; discriminate E.
  - intros w b IH r [IH1 IH2]. split.
    + intros r' p o p' o' l (_ & _ & Pb & _ & _ & Pr) P' (t & m & l' & -> & Sw & Sb & Sr) S'. destruct r' as [w2 b2|w2 b2 r2].
      * destruct S' as (t2 & m2 & E & _). injection E as _ _ ->. destruct r; [destruct Sr as (? & ? & E & _)|destruct Sr as (? & ? & ? & E & _)]; discriminate E.
      * destruct P' as (_ & _ & Pb2 & _ & _ & Pr2). destruct S' as (t2 & m2 & l2 & E & Sw2 & Sb2 & Sr2). injection E as <- <- <-. f_equal; [eapply word_eq|eapply IH|eapply IH1]; eauto.
    + intros r' l (_ & Pb & Pr) P' (t & m & l' & -> & Sw & Sb & Sr) S'. destruct r' as [w2 b2|w2 b2 r2].
      * destruct S' as (t2 & m2 & E & _). injection E as _ _ ->. destruct r; [destruct Sr as (? & ? & E & _)|destruct Sr as (? & ? & ? & E & _)]; discriminate E.
      * destruct P' as (_ & Pb2 & Pr2). destruct S' as (t2 & m2 & l2 & E & Sw2 & Sb2 & Sr2). injection E as <- <- <-. f_equal; [eapply word_eq|eapply IH|eapply IH2]; eauto.
  - intros b' l _ P' -> S'. destruct b'; [reflexivity|destruct S' as (? & E & _); discriminate E|destruct S' as (? & ? & ? & E & _); discriminate E].
  - intros a IH b' l P P' (n & -> & S) S'. destruct b' as [|a2|a2 r2]; [discriminate S'| |].
    + destruct S' as (n2 & E & S2). injection E as <-. f_equal. eapply IH; eauto.
    + exfalso. destruct S' as (ch & m & l' & E & Ech & Sa & Sr). injection E as ->. destruct a as [w2|w2 a1|a1 w2|a1 w2 b2|a1 r1|v2 b2 w2|h2 v2 b2 w2]; try (other S).
      destruct S as (p3 & o3 & ch3 & m3 & l3 & Eo & En & _). injection En as Eo' _. destruct (chain_row _ _ _ Eo) as [_ N]. congruence.
  - intros a IH r [_ IHr] b' l P P' (ch & m & l' & -> & Ech & Sa & Sr) S'. destruct b' as [|a2|a2 r2]; [discriminate S'| |].
    + exfalso. destruct S' as (n2 & E & S). injection E as <-. destruct a2 as [w2|w2 a1|a1 w2|a1 w2 b2|a1 r1|v2 b2 w2|h2 v2 b2 w2]; try (other S).
      destruct S as (p3 & o3 & ch3 & m3 & l3 & Eo & En & _). injection En as Eo' _. destruct (chain_row _ _ _ Eo) as [_ N]. congruence.
    + destruct P as (Pa & Pr). destruct P' as (Pa2 & Pr2). destruct S' as (ch3 & m3 & l3 & E & Ech3 & Sa3 & Sr3). injection E as <-. rewrite Ech in Ech3. injection Ech3 as <- <-. f_equal; [eapply IH|eapply IHr]; eauto.
Qed.

(** ** Brackets everywhere *)
Lemma paren_proper : forall a, proper a -> proper (paren a).
Proof. intros a H. cbn [proper paren proper_body]. split; [|split; [reflexivity|exact H]]. cbn [fst]. destruct (prefix_of TK_OpenParen) eqn:E; try (vm_compute in E; discriminate E). eauto. Qed.
Lemma chain_stops : forall p o k, Z.odd p = false -> as_infix k = Some (p, o) -> stops p k.
Proof.
  intros p o k O H q E. unfold as_infix in H. unfold joining_precedence in E. destruct (infix_of k); try discriminate H; injection H as <- <-; injection E as <-; right; auto.
Qed.
Lemma guarded_head : forall r, fst (head_word (guarded_tail r)) = fst (head_word r).
Proof. intros [w b|w b r]; reflexivity. Qed.
Lemma formed_head : forall p o r, formed_tail p o r -> as_infix (fst (head_word r)) = Some (p, o).
Proof. intros p o [w b|w b r] H; exact (proj1 H). Qed.
Lemma guarded_proper : (forall e, formed e -> proper (guarded e)) /\
  (forall r, (forall p o, Z.odd p = false -> formed_tail p o r -> proper_tail p o (guarded_tail r)) /\ (formed_list r -> proper_list (guarded_tail r))) /\
  (forall b, formed_body b -> proper_body (guarded_body b)).
Proof.
  apply expr_ind2.
  - intros w H. exact H.
  - intros w a IH ((p & o & E) & Ha). exists p, o. split; [exact E|]. split; [exact I|]. apply paren_proper; auto.
  - intros a IH w ((p & o & E) & Ha). exists p, o. split; [exact E|]. split; [apply paren_proper; auto|exact I].
  - intros a IHa w b IHb ((p & o & E) & Ha & Hb). exists p, o. split; [exact E|]. split; [apply paren_proper; auto|]. split; [exact I|]. split; [exact I|]. apply paren_proper; auto.
  - intros a IHa r [IHr _] ((p & o & Hr) & Ha). exists p, o. pose proof (formed_head _ _ _ Hr) as E. cbn [guarded]. rewrite guarded_head. split; [exact E|]. split; [apply paren_proper; auto|]. split; [exact I|].
    apply IHr; auto. apply (chain_row _ _ _ E).
  - intros v b IH w (Ho & Br & Hb). split; [exact Ho|]. split; [exact Br|]. auto.
  - intros h IHh v b IH w (Ho & Br & Hh & Hb). split; [exact Ho|]. split; [exact Br|]. split; [apply paren_proper; auto|]. split; [exact I|]. auto.
  - intros w b IH. split.
    + intros p o O (E & Ei & Hb). split; [split; [eauto|]|split; [exact I|apply paren_proper; auto]]. intros K. split; [auto|reflexivity].
    + intros (E & Hb). split; [exact E|]. apply paren_proper; auto.
  - intros w b IH r [IH1 IH2]. split.
    + intros p o O (E & Ei & Hb & Hr). cbn [guarded_tail proper_tail]. split; [split; [eauto|intros K; split; [auto|reflexivity]]|]. split; [exact I|]. split; [apply paren_proper; auto|]. split; [exact I|].
      rewrite guarded_head. split; [|auto]. eapply chain_stops; [exact O|]. eapply formed_head; eauto.
    + intros (E & Hb & Hr). split; [exact E|]. split; [apply paren_proper; auto|auto].
  - intros _. exact I.
  - intros a IH H. exact (IH H).
  - intros a IH r [_ IHr] (Ha & Hr). split; auto.
Qed.
Lemma guarded_bare : (forall e, bare (guarded e) = bare e) /\ (forall r, bare_tail (guarded_tail r) = bare_tail r) /\ (forall b, bare_body (guarded_body b) = bare_body b).
Proof.
  apply expr_ind2; intros; cbn [guarded guarded_tail guarded_body bare bare_tail bare_body paren fst]; rewrite ?Z.eqb_refl; try reflexivity; try congruence.
  destruct b as [|a|a r]; cbn [guarded_body] in *; try reflexivity.
  - cbn [bare_body] in H. injection H as H. rewrite H. reflexivity.
  - cbn [bare_body] in *. congruence.
Qed.

(** ** Words with blanks behind them *)
Definition spellable (w : word) : Prop := forall e, lexeme (fst w) (snd w) (blanks ++ e).
Lemma after_string_more : forall n w r e, (length w <= n)%nat -> after_string w = Some r -> after_string (w ++ e) = Some (r ++ e).
Proof.
  induction n as [|n IH]; intros w r e L H; (destruct w as [|a w]; [discriminate H|]); cbn [length] in L; [lia|]. cbn [app after_string] in *.
  destruct (a =? 34); [injection H as <-; reflexivity|]. destruct (a =? 92); [|apply IH; auto; lia]. destruct w as [|b w]; [discriminate H|]. cbn [app]. apply IH; auto. cbn [length] in L. lia.
Qed.
Lemma operator_bytes : forallb (fun e => if snd e =? TK_Whitespace then true else forallb (fun b => if b =? 32 then false else if b =? 92 then false else true) (fst e)) operators = true.
Proof. vm_compute. reflexivity. Qed.
Lemma blank_operators : forallb (fun e => if snd e =? TK_Whitespace then Nat.eqb (length (fst e)) 1 else Nat.ltb 0 (length (fst e))) operators = true.
Proof. vm_compute. reflexivity. Qed.
Lemma op_bytes : forall w k b, In (w, k) operators -> k <> TK_Whitespace -> In b w -> b <> 32 /\ b <> 92.
Proof.
  intros w k b H K Hb. pose proof (proj1 (forallb_forall _ _) operator_bytes _ H) as F. cbn [fst snd] in F. apply Z.eqb_neq in K. rewrite K in F. pose proof (proj1 (forallb_forall _ _) F _ Hb) as G. cbn beta in G.
  destruct (Z.eqb_spec b 32); [discriminate G|]. destruct (Z.eqb_spec b 92); [discriminate G|]. auto.
Qed.
Lemma op_length : forall w k, In (w, k) operators -> (k = TK_Whitespace -> length w = 1%nat) /\ (0 < length w)%nat.
Proof.
  intros w k H. pose proof (proj1 (forallb_forall _ _) blank_operators _ H) as F. cbn [fst snd] in F. destruct (Z.eqb_spec k TK_Whitespace) as [E|E].
  - apply Nat.eqb_eq in F. split; [auto|lia].
  - apply Nat.ltb_lt in F. split; [intros X; contradiction|lia].
Qed.
Lemma ordinary_spellable : forall w, ordinary w -> spellable w.
Proof.
  intros w H e. destruct H as [w H|k w H|w H|k w H K|k s name p w H1 H2 H3 H4]; cbn [fst snd].
  - apply lex_name; auto. split.
    + right. left. exists 32, (32 :: 32 :: 32 :: e). split; [reflexivity|]. unfold letter. lia.
    + intros (b & r & E & X). injection E as <- _. unfold digit_byte in X. lia.
  - apply lex_number; auto. right. exists 32, (32 :: 32 :: 32 :: e). split; [reflexivity|]. split; [unfold digit_byte; lia|]. split; [cbn [In]; lia|]. split; [intros _; unfold alnum, digit_byte; lia|]. split; [lia|lia].
  - apply lex_string. rewrite (after_string_more _ _ _ (blanks ++ e) (le_n _) H). reflexivity.
  - destruct (op_length _ _ H) as (_ & L). apply lex_operator; auto.
    + split; [exact H|]. split.
      * intros [[_ (b & r & E & X)]|[[_ (b & r & E & X)]|[_ (b & r & E & X)]]]; injection E as <- _; unfold digit_byte in X; lia.
      * intros op k' e' H' E _. destruct (Nat.le_gt_cases (length op) (length w)) as [X|X]; auto. exfalso.
        assert (B : In 32 op).
        { apply (f_equal (fun l => nth (length w) l 0)) in E. rewrite app_nth2 in E by lia. rewrite Nat.sub_diag in E. cbn [blanks app nth] in E. rewrite app_nth1 in E by lia. rewrite E. apply nth_In. lia. }
        destruct (op_length _ _ H') as (L' & _). destruct (Z.eq_dec k' TK_Whitespace) as [Ek|Ek]; [specialize (L' Ek); lia|]. destruct (op_bytes _ _ _ H' Ek B) as [Z1 _]. auto.
    + intros X. assert (Y : In 92 w \/ In 92 blanks).
      { assert (N : exists m, firstn 4 (w ++ blanks ++ e) = firstn m (w ++ blanks)).
        { exists 4%nat. rewrite app_assoc, firstn_app. replace (4 - length (w ++ blanks))%nat with 0%nat by (rewrite app_length; cbn [length blanks]; lia). rewrite firstn_O, app_nil_r. reflexivity. }
        destruct N as (m & N). rewrite N in X. apply in_app_or. rewrite <- (firstn_skipn m (w ++ blanks)). apply in_or_app. auto. }
      destruct Y as [Y|Y]; [destruct (op_bytes _ _ _ H K Y) as [_ Z1]; auto|]. cbn [blanks In] in Y. lia.
  - eapply lex_character; eauto.
Qed.
Lemma blanks_gap : forall b t r, gap b t r -> gap b (blanks ++ t) r.
Proof. intros b t r H. unfold blanks. cbn [app]. repeat (apply gap_blank; [auto|]). exact H. Qed.
Definition depth (d : nat) (l : list word) : nat := fold_left (fun d (w : word) => behind d (fst w)) l d.
Lemma depth_app : forall d a b, depth d (a ++ b) = depth (depth d a) b.
Proof. intros d a b. apply fold_left_app. Qed.
Lemma depth_cons : forall d w l, depth d (w :: l) = depth (behind d (fst w)) l.
Proof. reflexivity. Qed.
Lemma depth_written : forall d w, flat (fst w) -> depth d (written w) = d.
Proof. intros d w H. unfold written. destruct (fst w =? TK_Fake_ImplicitTimes); [reflexivity|]. cbn [depth fold_left]. apply H. Qed.
Lemma flat_comma : forall w, comma w -> flat (fst w).
Proof. intros w ->. apply flat_infix. exact I. Qed.
Lemma group_depth : forall d v w l, bracketed v w -> (forall d, depth d l = d) -> depth d (v :: l ++ [w]) = d.
Proof.
  intros d v w l H L. pose proof (opener_closer _ _ H) as N. rewrite depth_cons, (open_behind _ _ _ H), depth_app, L. cbn [depth fold_left]. apply close_behind. exact N.
Qed.
Lemma words_depth : (forall e, proper e -> forall d, depth d (words e) = d) /\
  (forall r, (forall p o, proper_tail p o r -> forall d, depth d (tail_words r) = d) /\ (proper_list r -> forall d, depth d (tail_words r) = d)) /\
  (forall b, proper_body b -> forall d, depth d (body_words b) = d).
Proof.
  apply expr_ind2.
  - intros w P d. cbn [words]. cbn [depth fold_left]. apply flat_prefix. cbn [proper] in P. destruct P as [ -> | -> ]; exact I.
  - intros w a IH (p & o & H & _ & Pa) d. cbn [words]. rewrite depth_cons. rewrite (flat_prefix (fst w)); [auto|]. apply prefix_prec in H as [ -> _]. exact I.
  - intros a IH w (p & o & H & Pa & _) d. cbn [words]. rewrite depth_app, IH by auto. cbn [depth fold_left]. apply flat_infix. apply postfix_prec in H as (_ & _ & ->). exact I.
  - intros a IHa w b IHb (p & o & H & Pa & _ & _ & Pb) d. cbn [words]. rewrite depth_app, IHa, depth_cons, (flat_binary _ _ _ H) by auto. auto.
  - intros a IHa r [IHr _] (p & o & H & Pa & _ & Pr) d. cbn [words]. rewrite depth_app, IHa by auto. eauto.
  - intros v b IH w (_ & Br & Pb) d. cbn [words]. apply group_depth; auto.
  - intros h IHh v b IH w (_ & Br & Ph & _ & Pb) d. cbn [words]. rewrite depth_app, IHh by auto. apply group_depth; auto.
  - intros w b IH. split.
    + intros p o (((q & J) & _) & _ & Pb) d. cbn [tail_words]. rewrite depth_app, (depth_written _ _ (flat_chain _ _ _ J)). auto.
    + intros (C & Pb) d. cbn [tail_words]. rewrite depth_app, (depth_written _ _ (flat_comma _ C)). auto.
  - intros w b IH r [IH1 IH2]. split.
    + intros p o (((q & J) & _) & _ & Pb & _ & _ & Pr) d. cbn [tail_words]. rewrite !depth_app, (depth_written _ _ (flat_chain _ _ _ J)), IH by auto. eauto.
    + intros (C & Pb & Pr) d. cbn [tail_words]. rewrite !depth_app, (depth_written _ _ (flat_comma _ C)), IH by auto. auto.
  - reflexivity.
  - intros a IH P d. exact (IH P d).
  - intros a IH r [_ IHr] (Pa & Pr) d. cbn [body_words]. rewrite depth_app, IH by auto. auto.
Qed.
Lemma blanks_gap_or : forall b t r y, gap b y r -> t = y \/ t = blanks ++ y -> gap b t r.
Proof. intros b t r y H [ -> | -> ]; auto. apply blanks_gap. exact H. Qed.
Lemma print_from : forall l d f r y t, Forall spellable l -> t = print l ++ y \/ t = blanks ++ print l ++ y ->
  (forall f' t', t' = y \/ t' = blanks ++ y -> spells (depth d l) f' r t') -> spells d f (l ++ r) t.
Proof.
  induction l as [|[k w] l IH]; intros d f r y t H Ht HQ.
  - apply HQ. exact Ht.
  - assert (E : print (@cons word (k, w) l) ++ y = w ++ blanks ++ print l ++ y) by (unfold print; cbn [map concat snd]; rewrite <- !app_assoc; reflexivity). rewrite E in Ht. inversion H; subst.
    cbn [app]. apply spells_cons with (e := blanks ++ print l ++ y); [eapply blanks_gap_or; [apply gap_none|exact Ht]|exact (H2 (print l ++ y))|]. apply IH with (y := y); auto.
Qed.
Lemma print_spells : forall l d f, Forall ordinary l -> spells d f l (print l).
Proof.
  intros l d f H. rewrite <- (app_nil_r l) at 1. apply print_from with (y := []); [eapply Forall_impl; [|exact H]; exact ordinary_spellable|left; symmetry; apply app_nil_r|].
  intros f' t' Ht. apply spells_nil. eapply blanks_gap_or; [apply gap_none|exact Ht].
Qed.
Lemma newline_break : forall e, line_break [10] e. Proof. intros e. left. reflexivity. Qed.
Lemma program_spells : forall es, proper_program es -> Forall (fun e => Forall ordinary (words e)) es -> forall f t, t = print_program es \/ t = blanks ++ print_program es -> spells 0 f (program_words es) t.
Proof.
  induction es as [|e r IH]; intros P H f t Ht.
  - apply spells_nil. eapply blanks_gap_or; [apply gap_none|exact Ht].
  - destruct P as (Pe & _ & Pr). inversion H as [|? ? He Hr]; subst. assert (E : print_program (e :: r) = print (words e) ++ 10 :: print_program r) by (unfold print_program; cbn [map concat]; rewrite <- app_assoc; reflexivity). rewrite E in Ht.
    rewrite program_cons. eapply print_from; [eapply Forall_impl; [|exact He]; exact ordinary_spellable|exact Ht|]. rewrite (proj1 words_depth e Pe 0%nat). intros f' t' Ht'. destruct r as [|e' r].
    + apply spells_nil. eapply blanks_gap_or; [|exact Ht']. apply (gap_line _ [10] []); [reflexivity|apply newline_break|apply gap_none].
    + cbn [rest]. apply spells_line with (w := [10]) (e := print_program (e' :: r)); [eapply blanks_gap_or; [apply gap_none|exact Ht']|apply newline_break|]. apply IH; auto.
Qed.

(** ** The public parser *)
Lemma complete_parts : forall es l, proper_program es -> Forall2 shows es (parts l) -> complete l.
Proof.
  intros es l P S. apply closed_complete, closed_parts. revert P. induction S as [|e n es ns Sn _ IH]; intros P; constructor; destruct P as (Pe & _ & Pr); auto. apply (proj1 shows_closed e); auto.
Qed.
Lemma public_shows : forall o dbg es input l s', 0 < o_tab_width o -> proper_program es -> spells 0 true (program_words es) input -> parse_cst_seq o dbg NotScript input = Ok (l, s') -> Forall2 shows es (parts l).
Proof.
  intros o dbg es input l s' Ht P S H. destruct (public_patched _ _ _ _ _ _ Ht H) as (l0 & E & _). pose proof (program_shows _ _ _ _ _ _ _ Ht P S E) as Sn.
  pose proof (complete_parts _ _ P Sn) as C. apply (proj2 (public_complete _ _ _ _ _ _ Ht C)) in E. rewrite E in H. injection H as <-. exact Sn.
Qed.
Lemma public_returns : forall o dbg es input, 0 < o_tab_width o -> proper_program es -> spells 0 true (program_words es) input -> ~ has_surrogate_escape input ->
  (dbg = true -> never_lexed o input TK_LongName_InvisibleComma) -> exists l s', parse_cst_seq o dbg NotScript input = Ok (l, s') /\ Forall2 shows es (parts l).
Proof.
  intros o dbg es input Ht P S Hu Hd. destruct (parse_total o dbg keep NotScript input Ht Hu) as (l & s' & E & _); auto.
  { intros op ch _. exists ch. reflexivity. }
  pose proof (program_shows _ _ _ _ _ _ _ Ht P S E) as Sn. pose proof (complete_parts _ _ P Sn) as C. exists l, s'. split; auto. apply public_complete; auto.
Qed.
Lemma one_proper : forall e, proper e -> proper_program [e].
Proof. intros e H. cbn [proper_program]. auto. Qed.
Lemma one_shown : forall e l, Forall2 shows [e] l -> exists n, l = [n] /\ shows e n.
Proof. intros e l H. inversion H as [|? n ? ns S H']; subst. inversion H'; subst. eauto. Qed.
Lemma programs_once : forall es es' l, proper_program es -> proper_program es' -> Forall2 shows es l -> Forall2 shows es' l -> es = es'.
Proof.
  intros es es' l P P' S. revert es' P P'. induction S as [|e n es ns Sn _ IH]; intros es' P P' S'; inversion S' as [|e' ? es2 ? Sn' S2]; subst; auto. destruct P as (Pe & _ & Pr). destruct P' as (Pe' & _ & Pr').
  f_equal; [exact (proj1 shows_once e e' n Pe Pe' Sn Sn')|auto].
Qed.
Lemma parens_proper : forall es, Forall formed es -> proper_program (map (fun e => paren (guarded e)) es).
Proof.
  intros es H. induction H as [|e es He _ IH]; cbn [map proper_program]; [exact I|]. split; [apply paren_proper, (proj1 guarded_proper e He)|]. split; [|exact IH]. destruct es as [|e' es]; [exact I|]. cbn [map]. split; [exact I|discriminate].
Qed.

Lemma paren_ordinary : ordinary (TK_OpenParen, [40]) /\ ordinary (TK_CloseParen, [41]).
Proof. split; apply ord_operator; try discriminate; vm_compute; tauto. Qed.
Lemma paren_words : forall a, Forall ordinary (words a) -> Forall ordinary (words (paren a)).
Proof. intros a H. destruct paren_ordinary as [P1 P2]. cbn [words paren body_words]. constructor; auto. apply Forall_app; split; auto. Qed.
Lemma guarded_words : (forall e, Forall ordinary (words e) -> Forall ordinary (words (guarded e))) /\
  (forall r, Forall ordinary (tail_words r) -> Forall ordinary (tail_words (guarded_tail r))) /\
  (forall b, Forall ordinary (body_words b) -> Forall ordinary (body_words (guarded_body b))).
Proof.
  apply expr_ind2.
  - intros w H. exact H.
  - intros w a IH H. cbn [words guarded] in *. inversion H; subst. constructor; auto. apply paren_words; auto.
  - intros a IH w H. cbn [words guarded] in *. apply Forall_app in H as [H1 H2]. apply Forall_app; split; auto. apply paren_words; auto.
  - intros a IHa w b IHb H. cbn [words guarded] in *. apply Forall_app in H as [H1 H2]. inversion H2; subst. apply Forall_app; split; [apply paren_words; auto|]. constructor; auto. apply paren_words; auto.
  - intros a IHa r IHr H. cbn [words guarded] in *. apply Forall_app in H as [H1 H2]. apply Forall_app; split; auto. apply paren_words; auto.
  - intros v b IH w H. cbn [words guarded] in *. inversion H as [|? ? H1 H2]; subst. apply Forall_app in H2 as [H2 H3]. constructor; auto. apply Forall_app; split; auto.
  - intros h IHh v b IH w H. cbn [words guarded] in *. apply Forall_app in H as [H1 H2]. inversion H2 as [|? ? H3 H4]; subst. apply Forall_app in H4 as [H4 H5]. apply Forall_app; split; [apply paren_words; auto|].
    constructor; auto. apply Forall_app; split; auto.
  - intros w b IH H. cbn [tail_words guarded_tail] in *. apply Forall_app in H as [H1 H2]. apply Forall_app; split; auto. apply paren_words; auto.
  - intros w b IH r IHr H. cbn [tail_words guarded_tail] in *. apply Forall_app in H as [H1 H2]. apply Forall_app in H2 as [H2 H3]. apply Forall_app; split; auto. apply Forall_app; split; auto. apply paren_words; auto.
  - intros H. exact H.
  - intros a IH H. exact (IH H).
  - intros a IH r IHr H. cbn [body_words guarded_body] in *. apply Forall_app in H as [H1 H2]. apply Forall_app; split; auto.
Qed.
