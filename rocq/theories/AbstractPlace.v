(** Where the parts of an abstract tree are. *)
From Coq Require Import String.
From Coq Require Import ZArith List Bool Lia.
From Verif Require Import Base Source WLChar LongNames SpecText Iter GenTokenKind TokenKind Tokenizer GenPrec GenOps GenParselets Parselets Cst SpecCst CstProofs Parser SpecParser SpecParse TokenizerProofs ParserTheorems
  Ast Abstract SpecAbstract SpecPlace AbstractProofs AbstractShape AbstractTotal AbstractTheorems AbstractSame AbstractKeep.
Import ListNotations.
Local Open Scope list_scope.
Local Open Scope Z_scope.

Lemma within_refl : forall s, within s s.  Proof. intros s. split; apply loc_leb_refl. Qed.
Lemma within_trans : forall a b c, within a b -> within b c -> within a c.
Proof. intros a b c [H1 H2] [H3 H4]. split; eapply loc_leb_trans; eauto. Qed.

(** ** Nodes within nodes *)
Lemma spaced_tight : forall a t r e, spaced a (t :: r) e -> spaced (sp_start (t_src t)) (t :: r) (sp_end (t_src (last (t :: r) t))).
Proof.
  intros a t r e H. inversion H as [|? ? ? ? H1 H2 H3]; subst. constructor; [apply loc_leb_refl|exact H2|]. clear H H1 H2 a.
  revert t H3. induction r as [|u r IH]; intros t H; [constructor; apply loc_leb_refl|]. inversion H as [|? ? ? ? H1 H2 H3]; subst. constructor; auto.
  replace (last (t :: u :: r) t) with (last (u :: r) u); [exact (IH u H3)|]. change (last (t :: u :: r) t) with (last (u :: r) t). clear. revert u. induction r as [|v r IH]; intros u; [reflexivity|]. change (last (v :: r) u = last (v :: r) t). 
  destruct r as [|w r]; [reflexivity|]. clear. revert v w. induction r as [|x r IH]; intros v w; [reflexivity|]. exact (IH w x).
Qed.
Lemma down_within : forall n m s s', good n -> In m (nodes n) -> get_source n = Ok s -> get_source m = Ok s' -> within s' s.
Proof.
  intros n m s s' G Hm E E'. destruct (good_source n G) as (s0 & E0 & t & r & u & T & L & S). rewrite E in E0. injection E0 as <-. pose proof (good_down n m G Hm) as (Fm & _ & _). destruct G as (F & _ & a & e & Sp).
  rewrite T in Sp. apply spaced_tight in Sp. rewrite <- T in Sp. rewrite L in Sp. destruct (nodes_toks n m Hm) as (x & y & Ex). rewrite Ex in Sp. apply spaced_app in Sp as (p & S1 & Sp). apply spaced_app in Sp as (q & S2 & S3).
  destruct (get_source_spaced m p q (fits_solid m Fm) S2) as (s1 & E1 & _ & L1 & _ & L2). rewrite E' in E1. injection E1 as <-. apply spaced_le in S1. apply spaced_le in S3. subst s. split; cbn; eapply loc_leb_trans; eauto.
Qed.

(** ** Sources in trees *)
Definition ok (s : span) (a : ast) : Prop := inside s a /\ nested a.
Lemma ok_within : forall s s' a, within s s' -> ok s a -> ok s' a.
Proof. intros s s' a W [I N]. split; [|exact N]. intros c x Hc Hx. eapply within_trans; [eapply I; eauto|exact W]. Qed.
Lemma occurs_inv : forall c a, occurs c a -> c = a \/ exists b, In b (subtrees a) /\ occurs c b.
Proof. intros c a H. inversion H; subst; eauto. Qed.
Lemma ok_build : forall s a, (forall x, In (Known x) (marks a) -> within x s) -> Forall (ok s) (subtrees a) ->
  (forall x, m_src (metadata a) = Known x -> (forall y, In (Known y) (marks a) -> within y x) /\ Forall (inside x) (subtrees a)) -> ok s a.
Proof.
  intros s a Hm Hs Hx. rewrite Forall_forall in Hs. split.
  - intros c x Hc Hi. apply occurs_inv in Hc as [->|(b & Hb & Hc)]; [auto|]. exact (proj1 (Hs b Hb) c x Hc Hi).
  - intros b c x y Hb Hc Ex Hy. apply occurs_inv in Hb as [->|(d & Hd & Hb)]; [|exact (proj2 (Hs d Hd) b c x y Hb Hc Ex Hy)]. destruct (Hx x Ex) as [X1 X2]. apply occurs_inv in Hc as [->|(e & He & Hc)]; [auto|]. rewrite Forall_forall in X2. exact (X2 e He c y Hc Hy).
Qed.
(** a node that has the source [s], or none *)
Definition meta_at (s : span) (d : ameta) : Prop :=
  (m_src d = Known s \/ m_src d = Unknown) /\ forall x, In (Known x) (flat_map (fun i => ai_src i :: ai_more i) (m_issues d)) -> within x s.
Lemma ok_at : forall s a, meta_at s (metadata a) -> Forall (ok s) (subtrees a) -> ok s a.
Proof.
  intros s a [M I] H. assert (K : forall x, In (Known x) (marks a) -> within x s). { intros x [Hx|Hx]; [|auto]. destruct M as [M|M]; rewrite M in Hx; [injection Hx as ->; apply within_refl|discriminate Hx]. }
  apply ok_build; auto. intros x Ex. destruct M as [M|M]; rewrite M in Ex; [injection Ex as <-|discriminate Ex]. split; auto. eapply Forall_impl; [|exact H]. intros b [B _]. exact B.
Qed.
Lemma at_src : forall s, meta_at s (from_src s).  Proof. intros s. split; [left; reflexivity|contradiction]. Qed.
Lemma at_none : forall s, meta_at s no_meta.  Proof. intros s. split; [right; reflexivity|contradiction]. Qed.
Lemma ok_leaf : forall s k x, ok s (ALeaf k x (from_src s)).  Proof. intros. apply ok_at; [apply at_src|constructor]. Qed.
Lemma ok_none : forall s k x, ok s (ALeaf k x no_meta).  Proof. intros. apply ok_at; [apply at_none|constructor]. Qed.
Lemma ok_call : forall s h l d, meta_at s d -> Forall (ok s) l -> ok s (call h l d).
Proof. intros s h l d M H. apply ok_at; [exact M|]. constructor; [apply ok_none|exact H]. Qed.
Lemma ok_acall : forall s h l d, meta_at s d -> ok s h -> Forall (ok s) l -> ok s (ACall h l d).
Proof. intros s h l d M Hh H. apply ok_at; [exact M|]. constructor; auto. Qed.
Lemma ok_kids : forall s a, ok s a -> Forall (ok s) (subtrees a).
Proof. intros s a [I N]. apply Forall_forall. intros b Hb. split; [intros c x Hc; apply I; eapply occurs_below; eauto|]. intros c d x y Hc. apply N. eapply occurs_below; eauto. Qed.
Lemma ok_select : forall s a, ok s a -> Forall (ok s) (selectChildren a).
Proof.
  intros s a H. assert (D : Forall (ok s) [a]) by auto. destruct a as [| |h l d| | | | | | | | | |]; try exact D. destruct h as [k x d0| | | | | | | | | | | |]; try exact D. cbn [selectChildren]. destruct (_ && _); [|exact D]. apply ok_kids in H. apply Forall_cons_iff in H as [_ H]. exact H.
Qed.
Lemma ok_selects : forall s l, Forall (ok s) l -> Forall (ok s) (flat_map selectChildren l).
Proof. intros s l H. induction H as [|a l Ha H IH]; [constructor|]. cbn. apply Forall_app. split; [apply ok_select; exact Ha|exact IH]. Qed.

Section place.
  Variable o : aopts.
  Variable rec : cst -> res ast.
  Hypothesis Hrec : forall m s a, good m -> get_source m = Ok s -> rec m = Ok a -> ok s a.

  Definition P (s : span) (m : cst) : Prop := good m /\ exists s', get_source m = Ok s' /\ within s' s.
  Lemma closed : forall s m k, P s m -> In k (nodes m) -> P s k.
  Proof.
    intros s m k (G & s' & E & W) H. pose proof (good_down _ _ G H) as G'. split; [exact G'|]. destruct (good_source k G') as (s2 & E2 & _). exists s2. split; [exact E2|]. eapply within_trans; [|exact W]. eapply down_within; [exact G|exact H|exact E|exact E2].
  Qed.
  Lemma r_ok : forall s m a, P s m -> rec m = Ok a -> ok s a.
  Proof. intros s m a (G & s' & E & W) Ea. eapply ok_within; [exact W|]. eapply Hrec; eauto. Qed.
  Lemma P_self : forall m s, good m -> get_source m = Ok s -> P s m.
  Proof. intros m s G E. split; [exact G|]. exists s. split; [exact E|apply within_refl]. Qed.
  Lemma kids : forall s k op ch, P s (Op k op ch) -> Forall (P s) ch.  Proof. intros s. exact (P_op (P s) (closed s)). Qed.
  Lemma in_P : forall s (l : list cst) c, In c l -> Forall (P s) l -> P s c.  Proof. intros s l c Hin H. rewrite Forall_forall in H. auto. Qed.
  Lemma P_tok : forall s t, P s (Tok t) -> within (t_src t) s.  Proof. intros s t (_ & s' & [= <-] & W). exact W. Qed.
  Ltac split_ch := repeat match goal with H : Forall (P _) (_ :: _) |- _ => apply Forall_cons_iff in H as [? H] end.

  Lemma r_list : forall s l r, Forall (P s) l -> mapr rec l = Ok r -> Forall (ok s) r.
  Proof. intros s l r H E. apply mapr_Ok in E. induction E as [|a b l r E F IH]; [constructor|]. split_ch. constructor; [eapply r_ok; eauto|auto]. Qed.
  Lemma r_mapped : forall s (f : cst -> res ast) l r, Forall (P s) l -> (forall n a, P s n -> f n = Ok a -> ok s a) -> mapr f l = Ok r -> Forall (ok s) r.
  Proof. intros s f l r H Hf E. apply mapr_Ok in E. induction E as [|a b l r E F IH]; [constructor|]. split_ch. constructor; [eapply Hf; eauto|auto]. Qed.
  Lemma r_quirk : forall s x n m, P s n -> processInfixBinaryAtQuirk o n x = Ok m -> P s m.
  Proof.
    intros s x n m H E. unfold processInfixBinaryAtQuirk in E. assert (D : Ok n = Ok m -> P s m) by (intros [= <-]; exact H). destruct (q_infix_binary_at o); cbn [negb] in E; [|exact (D E)].
    destruct n as [t|h b op2 body|e ch|k op2 ch|b ch src|y z src]; try exact (D E). destruct k; try exact (D E). destruct (op2 =? _); [|exact (D E)]. destruct ch as [|y [|z [|v [|? ?]]]]; try discriminate E.
    apply rbind_Ok in E as (is & _ & E). destruct is; [|exact (D E)]. pose proof (kids _ _ _ _ H). split_ch. destruct z; try discriminate E. destruct (_ =? _); [|discriminate E]. injection E as <-. assumption.
  Qed.
  Lemma r_quirks : forall s x l m, Forall (P s) l -> mapr (fun n => processInfixBinaryAtQuirk o n x) l = Ok m -> Forall (P s) m.
  Proof. intros s x l m H E. apply mapr_Ok in E. induction E as [|a b l m E F IH]; [constructor|]. split_ch. constructor; [eapply r_quirk; eauto|auto]. Qed.

  (** ** Products and sums *)
  Definition safe (s : span) (x : oper) : Prop :=
    match x with OCst m => P s m | OReciprocate m d => P s m /\ d = s | ONegativeOne => True | ONegated g d => number g /\ d = s end.
  Lemma flatten_data : forall s n l, flatten_times_cst o n s = Ok l -> Forall (fun x => match x with OReciprocate _ d | ONegated _ d => d = s | _ => True end) l.
  Proof.
    intros s. apply (cst_ind' (fun n => forall l, flatten_times_cst o n s = Ok l -> Forall (fun x => match x with OReciprocate _ d | ONegated _ d => d = s | _ => True end) l)). intros n IH l E. rewrite Forall_forall in IH.
    assert (D : Ok [OCst n] = Ok l -> Forall (fun x => match x with OReciprocate _ d | ONegated _ d => d = s | _ => True end) l) by (intros [= <-]; auto).
    destruct n as [t|h m op body|e ch|k op ch|b ch src|a b src]; try exact (D E). destruct k; try exact (D E); cbn [flatten_times_cst] in E.
    - destruct (op =? PREOP_Minus); [|exact (D E)]. destruct ch as [|t [|c [|? ?]]]; try discriminate E. apply rbind_Ok in E as (q & _ & E). destruct q.
      + apply rbind_Ok in E as (g & Eg & E). injection E as <-. auto.
      + destruct (q_flatten_times o); [|exact (D E)]. apply rbind_Ok in E as (r & Er & E). injection E as <-. constructor; [exact I|]. apply (IH c (or_intror (or_introl eq_refl)) r Er).
    - destruct (op =? IOP_Times); [|exact (D E)]. destruct (a_dbg o && _); [discriminate E|]. rewrite flatten_infix in E. apply rbind_Ok in E as (ls & E & X). injection X as <-. apply mapr_Ok in E.
      assert (Hi : forall c, In c (evens ch) -> forall l, flatten_times_cst o c s = Ok l -> Forall (fun x => match x with OReciprocate _ d | ONegated _ d => d = s | _ => True end) l).
      { intros c Hin r Er. apply evens_in in Hin. exact (IH c Hin r Er). }
      clear - E Hi. induction E as [|c b cs bs E F IHF]; [constructor|]. cbn [concat]. apply Forall_app. split; [exact (Hi c (or_introl eq_refl) b E)|apply IHF; intros; eapply Hi; [right|]; eauto].
    - destruct (op =? BOP_Divide); [|exact (D E)]. destruct (q_flatten_times o); [|exact (D E)]. destruct ch as [|x [|t [|y [|? ?]]]]; try discriminate E. apply rbind_Ok in E as (r & Er & E). injection E as <-.
      apply Forall_app. split; [exact (IH x (or_introl eq_refl) r Er)|auto].
  Qed.
  Lemma flatten_safe : forall s n l, P s n -> flatten_times_cst o n s = Ok l -> Forall (safe s) l.
  Proof.
    intros s n l H E. pose proof (flatten_data _ _ _ E) as D. pose proof (flatten_times_numbers _ _ _ _ E) as N. rewrite Forall_forall in *. intros x Hx. specialize (D x Hx). specialize (N x Hx). destruct x; cbn in *; auto; [eapply closed; eauto|split; auto; eapply closed; eauto].
  Qed.
  Lemma r_number : forall s g a, number g -> negated_number g s = Ok a -> ok s a.
  Proof. intros s g a N E. destruct g as [|t|t|l]; [injection E as <-|cbn in E; apply rbind_Ok in E as (x & _ & E); injection E as <-|cbn in E; apply rbind_Ok in E as (x & _ & E); injection E as <-|contradiction]; apply ok_leaf. Qed.
  Lemma r_reciprocate : forall s n a, P s n -> reciprocate_into_ast rec n s = Ok a -> ok s a.
  Proof. intros s n a H E. unfold reciprocate_into_ast in E. apply rbind_Ok in E as (b & Eb & E). injection E as <-. apply ok_call; [apply at_src|]. constructor; [eapply r_ok; eauto|]. constructor; [apply ok_none|constructor]. Qed.
  Lemma r_operands : forall s f l args, (forall n a, P s n -> f n = Ok a -> ok s a) -> Forall (safe s) l -> mapr (operand_into_ast rec f) l = Ok args -> Forall (ok s) args.
  Proof.
    intros s f l args Hf S E. apply mapr_Ok in E. induction E as [|x a l args E F IH]; [constructor|]. apply Forall_cons_iff in S as [S1 S2]. constructor; [|auto]. clear - Hf S1 E Hrec.
    destruct x as [n|n d| |g d]; cbn [operand_into_ast] in E; cbn in S1; [eauto|destruct S1 as [S1 ->]; eapply r_reciprocate; eauto|injection E as <-; apply ok_none|destruct S1 as [S1 ->]; eapply r_number; eauto].
  Qed.
  Lemma r_times : forall s l a, Forall (P s) l -> abstractTimes_InfixNode o rec l s = Ok a -> exists args, a = call "System`Times" args (from_src s) /\ Forall (ok s) args.
  Proof.
    intros s l a H E. unfold abstractTimes_InfixNode in E. apply rbind_Ok in E as (fl & Ef & E). apply rbind_Ok in E as (args & Ea & E). injection E as <-. exists args. split; [reflexivity|].
    unfold flattenTimes in Ef. apply rbind_Ok in Ef as (ls & Ef & X). injection X as <-. apply mapr_Ok in Ef.
    assert (S : Forall (safe s) (concat ls)).
    { clear - Ef H. induction Ef as [|c b cs bs E F IH]; [constructor|]. apply Forall_cons_iff in H as [H1 H2]. cbn [concat]. apply Forall_app. split; [eapply flatten_safe; eauto|auto]. }
    eapply r_operands; [|exact S|exact Ea]. intros n b Hn Eb. apply rbind_Ok in Eb as (m & Em & Eb). eapply r_ok; [eapply r_quirk; [exact Hn|exact Em]|exact Eb].
  Qed.
  Lemma r_negated : forall s g a, match g with InfixTimesSeq l => Forall (P s) l | _ => True end -> negated_into_ast o rec g s = Ok a -> ok s a.
  Proof.
    intros s g a H E. destruct g as [|t|t|l]; try (eapply r_number; [|exact E]; exact I). cbn [negated_into_ast] in E. apply rbind_Ok in E as (ch & Ec & E). apply span_even in Ec. subst ch. apply rbind_Ok in E as (b & Eb & E).
    apply r_times in Eb; [|apply P_evens; exact H]. destruct Eb as (args & -> & W). cbn [call] in E. injection E as <-. apply ok_acall; [apply at_src|apply ok_none|]. constructor; [apply ok_none|exact W].
  Qed.
  Lemma r_negated_of : forall s n g a, P s n -> negate n = Ok g -> negated_into_ast o rec g s = Ok a -> ok s a.
  Proof. intros s n g a H E. apply r_negated. destruct g; auto. eapply negate_seq; [exact (closed s)|exact E|exact H]. Qed.
  Lemma r_flatten_plus : forall s n m, P s n -> flattenPrefixPlus n = Ok m -> P s m.
  Proof. intros s n m H E. eapply closed; [exact H|]. eapply flatten_plus_in; eauto. Qed.
  Lemma r_prefix_plus : forall s n a, P s n -> abstractPrefixPlus rec n s = Ok a -> ok s a.
  Proof.
    intros s. apply (cst_ind' (fun n => forall a, P s n -> abstractPrefixPlus rec n s = Ok a -> ok s a)). intros n IH a H E. rewrite Forall_forall in IH.
    assert (D : rbind (rec n) (fun a => Ok (call "System`Plus" [a] (from_src s))) = Ok a -> ok s a).
    { intros E'. apply rbind_Ok in E' as (b & Eb & E'). injection E' as <-. apply ok_call; [apply at_src|]. constructor; [eapply r_ok; eauto|constructor]. }
    destruct n as [t|h b op body|e ch|k op ch|b ch src|x y src]; try exact (D E). destruct k; try exact (D E). cbn [abstractPrefixPlus] in E. destruct (op =? _); [|exact (D E)]. destruct ch as [|t [|c [|? ?]]]; try discriminate E.
    pose proof (kids _ _ _ _ H) as Hc. split_ch. refine (IH c _ a _ E); auto. right. left. reflexivity.
  Qed.
  Lemma r_pair : forall s t y x, P s t -> P s y -> processPlusPair t y = Ok x ->
    match x with OCst n => P s n | ONegated g d => within d s /\ match g with InfixTimesSeq l => Forall (P d) l | _ => True end | _ => False end.
  Proof.
    intros s t y x Ht H E. unfold processPlusPair in E. destruct t as [t| | | | |]; try discriminate E. destruct (zin _ _); [injection E as <-; exact H|]. destruct (zin _ _); [|discriminate E].
    apply rbind_Ok in E as (s1 & E1 & E). apply rbind_Ok in E as (s2 & E2 & E). apply rbind_Ok in E as (g & Eg & E). injection E as <-. apply P_tok in Ht as [T1 T2]. destruct H as (G & s' & E' & W1 & W2). rewrite E1 in E'. injection E' as <-.
    unfold span_between in E2. destruct (loc_leb _ _) as [[|]|] eqn:L; try discriminate E2. unfold Span_new in E2. 
    assert (X : s2 = mkspan (sp_start (t_src t)) (sp_end s1)) by (destruct (loc_leb _ _) as [[|]|] in E2; try discriminate E2; injection E2 as <-; reflexivity). subst s2. split; [split; assumption|].
    destruct g; auto. eapply negate_seq; [exact (closed _)|exact Eg|]. split; [exact G|]. exists s1. split; [exact E1|]. split; [exact L|apply loc_leb_refl].
  Qed.
  Lemma r_plus : forall s op ch a, P s (Op KInfix op ch) -> abstractPlus o rec ch s = Ok a -> ok s a.
  Proof.
    intros s op ch a H E. pose proof (kids _ _ _ _ H) as Hc. unfold abstractPlus in E. destruct ch as [|first r]; [discriminate E|]. apply rbind_Ok in E as (ps & Ep & E). apply rbind_Ok in E as (xs & Ex & E). apply rbind_Ok in E as (args & Ea & E).
    injection E as <-. apply ok_call; [apply at_src|]. apply mapr_Ok in Ex. apply mapr_Ok in Ea.
    assert (W : forall n b, P s n -> rbind (processInfixBinaryAtQuirk o n (bytes_of_string "Plus")) (fun m => rbind (flattenPrefixPlus m) (fun m => rec m)) = Ok b -> ok s b).
    { intros n b Hn Eb. apply rbind_Ok in Eb as (m & Em & Eb). apply rbind_Ok in Eb as (m2 & Em2 & Eb). eapply r_ok; [|exact Eb]. eapply r_flatten_plus; [|exact Em2]. eapply r_quirk; eauto. }
    inversion Ea as [|x0 a0 xs0 as0 E0 F0]; subst. constructor; [eapply W; [|exact E0]; split_ch; assumption|].
    assert (Py : forall p, In p ps -> P s (fst p) /\ P s (snd p)). { intros [x y] Hin. destruct (chunks_in _ _ _ _ _ Ep Hin) as [Hx Hy]. apply Forall_cons_iff in Hc as [_ Hc]. cbn. split; eapply in_P; eauto. }
    clear - Ex F0 Py W Hrec. revert as0 F0. induction Ex as [|[x y] z ps xs E F IH]; intros as0 F0; inversion F0 as [|z0 a1 ? as1 E1 F1]; subst; [constructor|].
    constructor; [|exact (IH (fun p Hp => Py p (or_intror Hp)) as1 F1)]. destruct (Py _ (or_introl eq_refl)) as [P1 P2]. pose proof (r_pair _ _ _ _ P1 P2 E) as K.
    destruct z as [n| | |g dd]; try contradiction; [exact (W n _ K E1)|]. destruct K as [K1 K2]. eapply ok_within; [exact K1|]. eapply r_negated; [exact K2|exact E1].
  Qed.
  Lemma r_derivative : forall s n z a, P s n -> derivativeOrderAndAbstractedBody rec n = Ok (z, a) -> ok s a.
  Proof.
    intros s. apply (cst_ind' (fun n => forall z a, P s n -> derivativeOrderAndAbstractedBody rec n = Ok (z, a) -> ok s a)). intros n IH z a H E. rewrite Forall_forall in IH.
    assert (D : rbind (rec n) (fun a => Ok (0, a)) = Ok (z, a) -> ok s a).
    { intros E'. apply rbind_Ok in E' as (b & Eb & E'). injection E' as <- <-. eapply r_ok; eauto. }
    destruct n as [t|h b op body|e ch|k op ch|b ch src|x y src]; try exact (D E). destruct k; try exact (D E). cbn [derivativeOrderAndAbstractedBody] in E. destruct (op =? _); [|exact (D E)]. destruct ch as [|c [|t [|? ?]]]; try discriminate E.
    apply rbind_Ok in E as ([z' b] & Eb & E). injection E as <- <-. pose proof (kids _ _ _ _ H) as Hc. split_ch. refine (IH c (or_introl eq_refl) _ _ _ Eb). assumption.
  Qed.

  (** ** Nodes *)
  Ltac oks := repeat first
    [ assumption
    | apply ok_none | apply ok_leaf | apply at_src | apply at_none | apply Forall_nil | apply Forall_cons
    | match goal with E : rec ?m = Ok ?a |- ok ?s ?a => exact (r_ok s m a ltac:(assumption) E) end
    | (apply ok_call; [|repeat apply Forall_cons; try apply Forall_nil])
    | (apply ok_acall; [| |repeat apply Forall_cons; try apply Forall_nil])
    | (apply ok_at; [cbn [metadata]|cbn [subtrees]; repeat apply Forall_cons; try apply Forall_nil]) ].
  Ltac rok := match goal with E : rec ?m = Ok ?a |- ok ?s ?a => exact (r_ok s m a ltac:(assumption) E) end.
  Ltac step E x := let Ex := fresh "E" x in apply rbind_Ok in E as (x & Ex & E).

  Lemma leaf_within : forall s t k x, P s (Tok t) -> ok s (ALeaf k x (from_src (t_src t))).
  Proof. intros s t k x H. eapply ok_within; [apply P_tok; exact H|apply ok_leaf]. Qed.
  Lemma r_token : forall t a, abstract_replace_token t = Ok a -> ok (t_src t) a.
  Proof.
    intros t a E. unfold abstract_replace_token in E. cbv zeta in E.
    repeat match type of E with (if ?c then _ else _) = _ => destruct c end; try step E x; try (apply Ok_inj in E; subst a); try (destruct (find_spelling _ _)); unfold symbol_leaf, int_leaf; oks.
  Qed.
  Lemma r_simplify : forall s first r aff, ok s first -> Forall (ok s) (map snd r) -> ok s (simplifyInfixInequality first r aff s).
  Proof.
    intros s first r aff Hf Hr. unfold simplifyInfixInequality. cbv zeta. assert (L : Forall (ok s) (first :: map snd r)) by auto. destruct (find _ SIMPLE_CHAINS); [apply ok_call; [apply at_src|exact L]|]. destruct (find _ VECTOR_CHAINS).
    { apply ok_call; [apply at_src|]. constructor; [|constructor]. apply ok_call; [apply at_none|exact L]. }
    assert (X : Forall (ok s) (first :: flat_map (fun '(s, a) => [symbol_leaf s no_meta; a]) r)).
    { constructor; [exact Hf|]. clear - Hr. induction r as [|[x a] r IH]; [constructor|]. cbn [map snd] in Hr. apply Forall_cons_iff in Hr as [H1 H2]. cbn. constructor; [apply ok_none|]. constructor; auto. }
    destruct aff as [[|]|]; (apply ok_call; [apply at_src|exact X]).
  Qed.
  Lemma r_inequality_loop : forall s pairs first r aff a, Forall (fun p => P s (snd p)) pairs -> ok s first -> Forall (ok s) (map snd r) -> inequality_loop rec pairs first r aff s = Ok a -> ok s a.
  Proof.
    intros s pairs. induction pairs as [|[t y] pairs IH]; intros first r aff a H Hf Hr E; cbn [inequality_loop] in E.
    - apply Ok_inj in E. subst a. apply r_simplify; auto.
    - apply Forall_cons_iff in H as [H1 H2]. cbn [snd] in H1. step E z. step E b. step E v. pose proof (r_ok _ _ _ H1 Eb) as Hb.
      assert (A : Forall (ok s) (map snd (r ++ [(z, b)]))) by (rewrite map_app; apply Forall_app; split; [exact Hr|cbn; auto]).
      destruct v as [v|]; [|exact (IH _ _ _ _ H2 Hf A E)]. destruct (match aff with Some _ => _ | None => _ end); [|exact (IH _ _ _ _ H2 Hf A E)].
      refine (IH _ _ _ _ H2 _ _ E); [apply r_simplify; auto|cbn; auto].
  Qed.
  Lemma r_inequality : forall s ch a, Forall (P s) ch -> abstractInfixInequality rec ch s = Ok a -> ok s a.
  Proof.
    intros s ch a H E. unfold abstractInfixInequality in E. destruct ch as [|first r]; [discriminate E|]. step E b. step E ps. step E qs. split_ch.
    assert (Pq : Forall (fun p => P s (snd p)) qs).
    { apply mapr_Ok in Eqs. assert (Hp : Forall (fun p => P s (snd p)) ps). { apply Forall_forall. intros [x y] Hin. destruct (chunks_in _ _ _ _ _ Eps Hin) as [_ Hy]. cbn. eapply in_P; eauto. }
      clear - Eqs Hp. induction Eqs as [|[x y] [t z] ps qs E F IH]; [constructor|]. apply Forall_cons_iff in Hp as [Hp1 Hp2]. destruct x; try discriminate E. injection E as -> ->. constructor; auto. }
    refine (r_inequality_loop _ _ _ _ _ _ Pq _ _ E); [rok|constructor].
  Qed.
  Lemma r_tilde_rest : forall s r lhs d a, meta_at s d -> ok s lhs -> Forall (P s) r -> abstractInfixTilde_rest rec lhs r d = Ok a -> ok s a.
  Proof.
    intros s r. induction r as [|m|m x r IH] using pair_ind; intros lhs d a M Hl H E; cbn -[rbind] in E; [discriminate E| |]; split_ch.
    - step E b. injection E as <-. oks.
    - destruct r as [|y r].
      + step E b. step E c. injection E as <-. oks.
      + step E b. step E c. refine (IH _ _ _ M _ H E). oks.
  Qed.
  Lemma r_tilde : forall s l d a, meta_at s d -> Forall (P s) l -> abstractInfixTilde rec l d = Ok a -> ok s a.
  Proof.
    intros s l d a M H E. destruct l as [|x [|y [|z [|v r]]]]; try discriminate E; split_ch; unfold abstractInfixTilde in E.
    - step E b. step E c. injection E as <-. oks.
    - step E b. refine (r_tilde_rest _ _ _ _ _ M _ _ E); [oks|auto].
    - step E b. step E c. refine (r_tilde_rest _ _ _ _ _ M _ _ E); [|auto]. refine (r_tilde_rest _ _ _ _ _ (at_none s) _ _ Ec); [oks|auto].
  Qed.
  Lemma r_dropped : forall s ch r, Forall (P s) ch -> part_span_drop_first_and_last ch = Ok r -> Forall (P s) r.
  Proof. intros s ch r H E. destruct ch as [|x [|y ch]]; try discriminate E. injection E as <-. split_ch. apply (P_removelast (P s) (y :: ch)). auto. Qed.
  Lemma r_group_args : forall s ch l, Forall (P s) ch -> abstractGroupNode rec ch = Ok l -> Forall (ok s) l.
  Proof. intros s ch l H E. unfold abstractGroupNode in E. step E r. step E q. injection E as <-. apply ok_selects. eapply r_list; [eapply r_dropped; eauto|exact Eq]. Qed.
  Lemma r_missing_args : forall s ch l, Forall (P s) ch -> abstractGroupMissingCloser rec ch = Ok l -> Forall (ok s) l.
  Proof. intros s ch l H E. unfold abstractGroupMissingCloser in E. destruct ch as [|x ch]; [discriminate E|]. step E q. injection E as <-. split_ch. apply ok_selects. eapply r_list; [|exact Eq]. exact H. Qed.
  Lemma r_comma : forall s cs r l, P s (Op KInfix IOP_CodeParser_Comma cs) -> part_span_even_children o None cs = Ok r -> mapr rec r = Ok l -> Forall (ok s) l.
  Proof. intros s cs r l H E El. apply span_even in E. subst r. eapply r_list; [|exact El]. apply P_evens. eapply kids; eauto. Qed.
  Lemma r_error : forall s e l, Forall (ok s) l -> ok s (AAbstractSyntaxError e l (from_src s)).
  Proof. intros s e l H. apply ok_at; [apply at_src|exact H]. Qed.
  Lemma r_paren : forall s ch a, Forall (P s) ch -> abstract_paren o rec ch s = Ok a -> ok s a.
  Proof.
    intros s ch a H E.
    assert (D : rbind (part_span_drop_first_and_last ch) (fun cs => rbind (mapr rec cs) (fun l => Ok (AAbstractSyntaxError OpenParen l (from_src s)))) = Ok a -> ok s a).
    { intros E'. step E' r. step E' q. injection E' as <-. apply r_error. eapply r_list; [|exact Eq]. eapply r_dropped; eauto. }
    unfold abstract_paren in E. destruct ch as [|x [|c [|y [|z ch]]]]; try exact (D E). split_ch. assert (R : rec c = Ok a -> ok s a) by (intros Ec; rok).
    destruct c as [t|h m cop body|e ch|k cop ch|b ch src|t u src]; try exact (R E). destruct k; try exact (R E).
    destruct (Z.eqb_spec cop IOP_CodeParser_Comma) as [->|_]; [|exact (R E)]. step E r. step E l. injection E as <-. apply r_error. eapply r_comma; eauto.
  Qed.
  Lemma r_naked : forall s e ch a, Forall (P s) ch -> abstract_naked o rec e ch s = Ok a -> ok s a.
  Proof.
    intros s e ch a H E. unfold abstract_naked in E. destruct ch as [|x [|c [|y [|z ch]]]]; try discriminate E; [injection E as <-; apply r_error; constructor|]. split_ch.
    assert (R : rbind (rec c) (fun a => Ok (AAbstractSyntaxError e [a] (from_src s))) = Ok a -> ok s a) by (intros Ec; step Ec b; injection Ec as <-; oks).
    destruct c as [t|h m cop body|e2 ch|k cop ch|b ch src|t u src]; try exact (R E). destruct k; try exact (R E).
    destruct (Z.eqb_spec cop IOP_CodeParser_Comma) as [->|_]; [|exact (R E)]. step E r. step E l. injection E as <-. apply r_error. eapply r_comma; eauto.
  Qed.
  Lemma r_group : forall s op ch a, Forall (P s) ch -> abstract_group o rec op ch s = Ok a -> ok s a.
  Proof.
    intros s op ch a H E. unfold abstract_group in E. destruct (op =? _); [eapply r_paren; eauto|]. destruct (op =? _); [eapply r_naked; eauto|]. destruct (op =? _); [eapply r_naked; eauto|]. destruct (op =? _); [eapply r_naked; eauto|].
    step E l. injection E as <-. apply ok_call; [apply at_src|]. eapply r_group_args; eauto.
  Qed.
  Lemma r_issues : forall s i ch is, Forall (P s) ch -> issue_between i ch = Ok is -> meta_at s (mk_ameta (Known s) is).
  Proof.
    intros s i ch is H E. split; [left; reflexivity|]. cbn [m_issues]. unfold issue_between in E. destruct i as [[[tag sev] conf]|]; [|injection E as <-; intros x []]. destruct ch as [|first r]; [discriminate E|]. step E x. step E y. injection E as <-.
    assert (Hl : P s (last (first :: r) first)). { rewrite Forall_forall in H. apply H. clear. revert first. induction r as [|z r IH]; intros first; [left; reflexivity|]. change (last (first :: z :: r) first) with (last (z :: r) first). right. assert (G : forall d, last (z :: r) d = last (z :: r) z) by (clear; revert z; induction r as [|v r IH]; intros z d; [reflexivity|]; change (last (v :: r) d = last (v :: r) z); rewrite (IH v d), (IH v z); reflexivity). rewrite G. apply IH. }
    apply Forall_cons_iff in H as [(_ & x' & Ex' & Wx) _]. destruct Hl as (_ & y' & Ey' & Wy). rewrite Ex in Ex'. injection Ex' as <-. rewrite Ey in Ey'. injection Ey' as <-. cbn. intros z [[= <-]|[[= <-]|[]]]; auto.
  Qed.
  Lemma r_call : forall s h missing op ch a, P s (Call h missing op ch) -> abstract_call_node rec h missing op ch s = Ok a -> ok s a.
  Proof.
    intros s h missing op ch a H E. pose proof (P_children (P s) (closed s) _ H) as Hc. rewrite children_call in Hc. apply Forall_app in Hc as [Hh Hch]. destruct h as [l|hd]; [discriminate E|]. cbn in Hh. apply Forall_cons_iff in Hh as [H0 _]. cbn [abstract_call_node] in E. clear H. destruct missing.
    - step E b. step E l. pose proof (r_missing_args _ _ _ Hch El) as L. pose proof (r_ok _ _ _ H0 Eb) as B.
      destruct (op =? _); [injection E as <-; apply ok_at; [apply at_src|constructor; auto]|]. destruct (op =? _); injection E as <-; (apply ok_at; [apply at_src|]); (constructor; [|auto]); [oks|apply ok_none].
    - destruct (op =? CALLOP_CodeParser_GroupSquare).
      + assert (N : rbind (issue_between (call_issue hd) ch) (fun issues => rbind (rec hd) (fun a => rbind (abstractGroupNode rec ch) (fun l => Ok (ACall a l (mk_ameta (Known s) issues))))) = Ok a -> ok s a).
        { intros E'. step E' is. step E' b. step E' l. injection E' as <-. apply ok_acall; [eapply r_issues; [exact Hch|exact Eis]|rok|eapply r_group_args; eauto]. }
        destruct ch as [|x [|inner mid]]; try discriminate E. destruct inner as [y|h2 m2 op2 body|e ch|k gop2 ch2|bb ch src|y z src]; try exact (N E). destruct k; try exact (N E). destruct (gop2 =? GOP_CodeParser_GroupSquare); [|exact (N E)].
        destruct mid as [|m2 [|m3 mid]]; try discriminate E. step E is. step E b. step E l. injection E as <-. apply ok_call; [eapply r_issues; [exact Hch|exact Eis]|]. constructor; [rok|]. split_ch. eapply r_group_args; [eapply kids; eauto|exact El].
      + destruct (op =? CALLOP_CodeParser_GroupTypeSpecifier).
        * step E x. step E b. step E l. injection E as <-. apply ok_acall; [|oks|eapply r_group_args; eauto]. split; [left; reflexivity|]. cbn [m_issues]. destruct H0 as (_ & x' & Ex' & Wx). rewrite Ex in Ex'. injection Ex' as <-. intros z Hz. destruct (match hd with Tok t => _ | _ => _ end); cbn in Hz; [contradiction|]. destruct Hz as [[= <-]|[]]. exact Wx.
        * destruct ch as [|x ch]; [discriminate E|]. step E is. step E b. step E l. injection E as <-. apply ok_call; [eapply r_issues; [exact Hch|exact Eis]|]. constructor; [rok|]. eapply r_group_args; eauto.
  Qed.
  Lemma r_compound : forall s op ch a, Forall (P s) ch -> abstract_compound o rec op ch s = Ok a -> ok s a.
  Proof.
    intros s op ch a H E. unfold abstract_compound in E. destruct ch as [|x [|y [|? ?]]]; try discriminate E. split_ch.
    destruct (zin _ _). { step E b. injection E as <-. oks. }
    destruct (zin _ _). { step E b. step E c. injection E as <-. oks. }
    destruct (op =? _). { destruct y as [u| | | | |]; try discriminate E. destruct (_ =? _); [|discriminate E]. step E b. injection E as <-. assert (B : ok s (call "System`Blank" [] (from_src (t_src u)))) by (eapply ok_within; [apply P_tok; eassumption|oks]). oks. }
    destruct (op =? _). { destruct y as [u| | | | |]; try discriminate E. destruct (_ =? _); [|destruct (zin _ _); [|discriminate E]].
      - step E b. injection E as <-. assert (B : ok s b) by (eapply ok_within; [apply P_tok; eassumption|apply r_token; exact Eb]). oks.
      - step E b. injection E as <-. pose proof (fun k z => leaf_within s u k z ltac:(assumption)) as B. apply ok_call; [apply at_src|]. constructor; [apply B|constructor]. }
    destruct y as [u| | | | |]; try discriminate E. destruct (_ =? _); [|discriminate E]. step E b. injection E as <-. oks.
  Qed.
  Lemma r_prefix : forall s op ch a, Forall (P s) ch -> abstract_prefix o rec op ch s = Ok a -> ok s a.
  Proof.
    intros s op ch a H E. unfold abstract_prefix in E. destruct ch as [|t [|x [|? ?]]]; try discriminate E. split_ch.
    destruct (op =? PREOP_Minus). { step E g. eapply r_negated_of; [exact H1|exact Eg|exact E]. }
    destruct (op =? PREOP_Plus); [eapply r_prefix_plus; [exact H1|exact E]|]. destruct (op =? _). { unfold abstractNot2 in E. step E z. step E b. injection E as <-. apply ok_call; [|oks]. split; [left; reflexivity|]. cbn. destruct H0 as (_ & z' & Ez' & Wz). rewrite Ez in Ez'. injection Ez' as <-. intros q [[= <-]|[]]. exact Wz. }
    destruct (op =? _). { destruct (leaf_of _ _); [step E b; step E c; injection E as <-; oks|]. step E b. injection E as <-. oks. }
    destruct (op =? _). { destruct x as [u| | | | |]; try discriminate E. destruct (_ =? _); [|discriminate E]. step E z. injection E as <-. unfold string_leaf. match goal with |- context [ALeaf TK_String ?v (from_src (t_src u))] => pose proof (leaf_within s u TK_String v ltac:(assumption)) end. oks. }
    step E b. injection E as <-. oks.
  Qed.
  Lemma r_postfix : forall s op ch a, Forall (P s) ch -> abstract_postfix rec op ch s = Ok a -> ok s a.
  Proof.
    intros s op ch a H E. unfold abstract_postfix in E. destruct ch as [|x [|t [|? ?]]]; try discriminate E. split_ch. destruct (op =? _). { step E b. injection E as <-. oks. }
    destruct (op =? _). { cbv zeta in E. destruct t as [t| | | | |]; try discriminate E. destruct (_ =? _); [|destruct (_ =? _); [|discriminate E]].
      - apply rbind_Ok in E as ([z b] & Eb & E). injection E as <-. pose proof (r_derivative _ _ _ _ H0 Eb). unfold int_leaf. oks.
      - step E z. step E b. injection E as <-. unfold int_leaf. oks. }
    step E b. injection E as <-. oks.
  Qed.
  Lemma r_binary : forall s op ch a, Forall (P s) ch -> abstract_binary o rec op ch s = Ok a -> ok s a.
  Proof.
    intros s op ch a H E. unfold abstract_binary in E. destruct ch as [|x [|t [|y [|? ?]]]]; try discriminate E. split_ch.
    destruct (op =? _). { unfold abstractTimes_BinaryNode_Divide in E. step E fl. step E args. step E r. injection E as <-. apply ok_call; [apply at_src|]. apply Forall_app. split; [|constructor; [eapply r_reciprocate; eauto|constructor]].
      eapply r_operands; [|eapply flatten_safe; [exact H0|exact Efl]|exact Eargs]. intros n b Hn Eb. rok. }
    destruct (op =? _). { step E b. step E c. injection E as <-. oks. }
    destruct (op =? _). { step E b. step E c. destruct (q_old_at_at_at o); injection E as <-; unfold int_leaf; oks. }
    destruct (op =? _). { step E b. step E c. injection E as <-. oks. }
    destruct (zin _ _). { destruct y as [u| | | | |]; try discriminate E. destruct (_ =? _); [|discriminate E]. step E z. step E b. injection E as <-. unfold string_leaf. match goal with |- context [ALeaf TK_String ?v (from_src (t_src u))] => pose proof (leaf_within s u TK_String v ltac:(assumption)) end. oks. }
    destruct (op =? _). { destruct (_ && _); [|discriminate E]. step E b. injection E as <-. oks. }
    step E b. step E c. destruct (_ && _); injection E as <-; oks.
  Qed.
  Lemma r_infix : forall s op ch a, P s (Op KInfix op ch) -> abstract_infix o rec op ch s = Ok a -> ok s a.
  Proof.
    intros s op ch a H E. pose proof (kids _ _ _ _ H) as Hc. pose proof (P_evens (P s) _ Hc) as He. unfold abstract_infix in E. destruct (op =? _). { exact (r_inequality _ _ _ Hc E). }
    destruct (op =? _); [exact (r_plus _ _ _ _ H E)|].
    destruct (op =? _). { step E l. apply span_even in El. subst l. apply r_times in E; [|exact He]. destruct E as (args & -> & W). apply ok_call; [apply at_src|exact W]. }
    destruct (op =? _). { step E l. apply span_even in El. subst l. step E l. step E args. injection E as <-. apply ok_call; [apply at_src|]. eapply r_list; [|exact Eargs]. apply Forall_rev. eapply r_quirks; eauto. }
    destruct (op =? _). { step E l. apply span_even in El. subst l. step E args. injection E as <-. apply ok_call; [apply at_src|]. eapply r_mapped; [exact He| |exact Eargs].
      intros n b Hn Eb. assert (R : rec n = Ok b -> ok s b) by (intros; rok). destruct n as [t| | | | |]; try exact (R Eb). destruct (_ =? _); [|exact (R Eb)]. injection Eb as <-. apply leaf_within. exact Hn. }
    destruct (op =? _). { step E l. apply span_even in El. subst l. unfold abstractMessageName in E. destruct (evens ch) as [|x r]; [discriminate E|]. cbv zeta in E. split_ch. step E b. step E args. injection E as <-. apply ok_call.
      - split; [left; reflexivity|]. cbn [m_issues]. intros z Hz. destruct (2 <? zlen r); cbn in Hz; [|contradiction]. destruct Hz as [[= <-]|[]]. apply within_refl.
      - constructor; [rok|]. eapply r_mapped; [exact He| |exact Eargs]. intros n c Hn Ec. assert (R : rec n = Ok c -> ok s c) by (intros; rok). destruct n as [t| | | | |]; try exact (R Ec). destruct (_ =? _); [|exact (R Ec)].
        step Ec z. injection Ec as <-. apply leaf_within. exact Hn. }
    destruct (op =? _). { step E l. apply span_even in El. subst l. eapply r_tilde; [apply at_src|exact He|exact E]. }
    destruct (Nat.even _); [discriminate E|]. step E l. apply span_even in El. subst l. step E l. step E args. injection E as <-. apply ok_call; [apply at_src|]. eapply r_list; [|exact Eargs].
    destruct (zin _ _); [injection El as <-; exact He|]. eapply r_quirks; eauto.
  Qed.
  Lemma r_children : forall s m cs src e, ok s m -> into_children_and_source m = Ok (cs, src) -> ok s (AAbstractSyntaxError e cs (mk_ameta src [])).
  Proof.
    intros s m cs src e H E. pose proof (ok_kids _ _ H) as K. assert (S : src = m_src (metadata m) /\ incl cs (subtrees m)).
    { destruct m; try discriminate E; injection E as <- <-; split; try reflexivity; cbn; auto using incl_refl, incl_tl. }
    destruct S as [-> I]. assert (K' : Forall (ok s) cs) by (rewrite Forall_forall in *; auto). destruct H as [H1 H2]. apply ok_build; cbn [metadata m_src subtrees marks m_issues flat_map].
    - intros x [Hx|[]]. apply (H1 m x (occurs_here m)). left. exact Hx.
    - exact K'.
    - intros x Ex. split; [intros y [Hy|[]]; rewrite Ex in Hy; injection Hy as <-; apply within_refl|]. apply Forall_forall. intros b Hb c y Hc Hy. refine (H2 m c x y (occurs_here m) _ Ex Hy). eapply occurs_below; [apply I; exact Hb|exact Hc].
  Qed.
  Lemma r_ternary : forall s op ch a, Forall (P s) ch -> abstract_ternary rec op ch s = Ok a -> ok s a.
  Proof.
    intros s op ch a H E. unfold abstract_ternary in E. destruct ch as [|x [|t [|y [|u [|z [|? ?]]]]]]; try discriminate E. split_ch.
    destruct (op =? _). { step E m. step E b. step E c. destruct (match y with Op KInfix iop _ => _ | _ => _ end).
      - apply rbind_Ok in E as ([cs src] & Ecs & E). injection E as <-. pose proof (r_children _ _ _ _ CommaTopLevel (r_ok _ _ _ H2 Em) Ecs). oks.
      - injection E as <-. oks. }
    destruct (op =? _). { destruct (_ && _); [|discriminate E]. step E b. step E c. injection E as <-. oks. }
    step E b. step E c. step E d. destruct (op =? _); injection E as <-; oks.
  Qed.
  Lemma r_prefix_binary : forall s op ch a, Forall (P s) ch -> abstract_prefix_binary rec op ch s = Ok a -> ok s a.
  Proof.
    intros s op ch a H E. unfold abstract_prefix_binary in E. destruct ch as [|t [|x [|y [|? ?]]]]; try discriminate E. split_ch.
    assert (R : rbind (rec x) (fun a => rbind (rec y) (fun b => Ok (call (op_symbol KPrefixBinary op) [a; b] (from_src s)))) = Ok a -> ok s a).
    { intros E'. step E' b. step E' c. injection E' as <-. oks. }
    destruct y as [v|h m cop body|e ch|k dop cs|bb ch src|v1 v2 src]; try exact (R E). destruct k; try exact (R E). destruct (zin _ _); [|exact (R E)]. destruct cs as [|v1 [|var [|? ?]]]; try discriminate E. pose proof (kids _ _ _ _ H2) as Hk. split_ch.
    step E b. step E c. injection E as <-. oks.
  Qed.
  Lemma r_node : forall n s a, good n -> get_source n = Ok s -> abstract_node o rec n s = Ok a -> ok s a.
  Proof.
    intros n s a G Es E. pose proof (P_self _ _ G Es) as H. assert (F : fits n). { destruct G as (F & _). rewrite nodes_subnodes in F. inversion F. assumption. }
    pose proof (P_children (P s) (closed s) _ H) as Hc. destruct n as [t|h m op body|e ch|k op ch|b ch src|x y src]; cbn [abstract_node] in E.
    - injection Es as <-. apply r_token. exact E.
    - eapply r_call; eauto.
    - cbn [children] in Hc. destruct ch as [|x [|t [|y [|? ?]]]]; try discriminate E. split_ch. step E b. step E c. injection E as <-. oks.
    - cbn [children] in Hc. destruct k; [eapply r_prefix|eapply r_infix|eapply r_postfix|eapply r_binary|eapply r_ternary|eapply r_prefix_binary|eapply r_compound|eapply r_group| |]; try exact E; eauto.
      + step E l. injection E as <-. apply ok_at; [apply at_src|]. eapply r_missing_args; eauto.
      + inversion F.
    - inversion F.
    - inversion F.
  Qed.
End place.

Theorem abstract_ok : forall o n s a, good n -> get_source n = Ok s -> abstract_cst o n = Ok a -> ok s a.
Proof.
  intros o n s a. unfold abstract_cst. generalize (size n) as k. intros k. revert n s a. induction k as [|k IH]; intros n s a G Es E; [discriminate E|]. cbn [abstract_] in E. rewrite Es in E. cbn [rbind] in E. apply rbind_Ok in E as (x & Ex & E).
  destruct (a_dbg o && _); [discriminate E|]. injection E as <-. eapply r_node; [exact IH|exact G|exact Es|exact Ex].
Qed.

Lemma last_cons : forall A (r : list A) t, last (t :: r) t = last r t.
Proof. intros A r t. destruct r; reflexivity. Qed.
Lemma placed_good : forall n s, good n -> get_source n = Ok s -> (forall ch, n <> Op KPostfix POSTOP_Derivative ch) ->
  (forall x m y, n = Op KGroup GOP_CodeParser_GroupParen [x; m; y] -> exists ch, m = Op KInfix IOP_CodeParser_Comma ch) -> placed n (Known s).
Proof.
  intros n s G E H1 H2. destruct (good_source n G) as (s0 & E0 & t & r & u & T & L & ->). rewrite E in E0. injection E0 as ->. rewrite T, last_cons in L. subst u. apply placed_own; auto. rewrite <- T. apply tokens_of_toks.
Qed.
Lemma no_derivative : forall n, derivative_node n = false -> forall ch, n <> Op KPostfix POSTOP_Derivative ch.
Proof. intros n H ch ->. discriminate H. Qed.
Theorem abstract_placed : forall o n a, good n -> abstract_cst o n = Ok a -> placed n (m_src (metadata a)).
Proof.
  intros o n a. unfold abstract_cst. generalize (size n) as k. intros k. revert n a. induction k as [|k IH]; intros n a G E; [discriminate E|]. cbn [abstract_] in E. apply rbind_Ok in E as (s & Es & E). apply rbind_Ok in E as (x & Ex & E).
  destruct (a_dbg o && _); [discriminate E|]. injection E as <-. destruct (derivative_node n) eqn:D.
  - rewrite (derivative_unknown _ _ _ _ _ D Ex). destruct n as [| | |kk op ch| |]; try discriminate D. destruct kk; try discriminate D. cbn in D. apply Z.eqb_eq in D. subst op. constructor.
  - destruct (paren_node n) eqn:Pn.
    + destruct n as [| | |kk op ch| |]; try discriminate Pn. destruct kk; try discriminate Pn. cbn in Pn. apply Z.eqb_eq in Pn. subst op. cbn [abstract_node] in Ex. unfold abstract_group in Ex. rewrite Z.eqb_refl in Ex. pose proof (no_derivative _ D) as ND.
      assert (O : forall l, x = AAbstractSyntaxError OpenParen l (from_src s) -> (forall x0 m y, ch = [x0; m; y] -> exists cs, m = Op KInfix IOP_CodeParser_Comma cs) -> placed (Op KGroup GOP_CodeParser_GroupParen ch) (m_src (metadata x))).
      { intros l -> Hm. apply placed_good; auto. intros x0 m y [= Ech]. eauto. }
      assert (X : rbind (part_span_drop_first_and_last ch) (fun cs => rbind (mapr (abstract_ o k) cs) (fun l => Ok (AAbstractSyntaxError OpenParen l (from_src s)))) = Ok x -> (forall x0 m y, ch <> [x0; m; y]) -> placed (Op KGroup GOP_CodeParser_GroupParen ch) (m_src (metadata x))).
      { intros E Hm. apply rbind_Ok in E as (r & _ & E). apply rbind_Ok in E as (l & _ & E). injection E as <-. eapply O; [reflexivity|]. intros x0 m y Ech. destruct (Hm _ _ _ Ech). }
      unfold abstract_paren in Ex. destruct ch as [|x0 [|c [|y [|z ch]]]]; try (apply X; [exact Ex|intros; discriminate]).
      assert (Gc : good c). { eapply good_down; [exact G|]. apply child_nodes. right. left. reflexivity. }
      assert (R : abstract_ o k c = Ok x -> (forall cs, c <> Op KInfix IOP_CodeParser_Comma cs) -> placed (Op KGroup GOP_CodeParser_GroupParen [x0; c; y]) (m_src (metadata x))) by (intros Ec Nc; apply placed_parentheses; [exact Nc|apply IH; auto]).
      destruct c as [t|h m cop body|e cs|kk cop cs|b cs src|t u src]; try (apply R; [exact Ex|discriminate]). destruct kk; try (apply R; [exact Ex|discriminate]). destruct (Z.eqb_spec cop IOP_CodeParser_Comma) as [->|Nc]; [|apply R; [exact Ex|intros cs' [= ? ?]; contradiction]].
      apply rbind_Ok in Ex as (r & _ & Ex). apply rbind_Ok in Ex as (l & _ & Ex). injection Ex as <-. eapply O; [reflexivity|]. intros x1 m y1 [= -> <- ->]. eauto.
    + rewrite (srcd_paren_free _ _ _ _ Es D Pn _ Ex). apply placed_good; auto; [apply no_derivative; exact D|]. intros x0 m y ->. discriminate Pn.
Qed.
Lemma placed_inside : forall o n a, good n -> abstract_cst o n = Ok a ->
  (forall x ts, tokens_of n (x :: ts) -> inside (mkspan (sp_start (t_src x)) (sp_end (t_src (last ts x)))) a) /\ nested a.
Proof.
  intros o n a G E. destruct (good_source n G) as (s & Es & t & r & u & T & L & ->). destruct (abstract_ok o n _ a G Es E) as [H1 H2]. split; [|exact H2].
  intros x ts Ht. apply tokens_of_det in Ht. rewrite T in Ht. injection Ht as -> ->. rewrite T, last_cons in L. subst u. exact H1.
Qed.
