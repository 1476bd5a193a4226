(** Abstraction commutes with moving things about in the source: it looks at the kinds and the
    text of tokens and hands on their positions. *)
From Coq Require Import String.
From Coq Require Import ZArith List Bool Lia.
From Verif Require Import Base Source LongNames Iter GenTokenKind TokenKind Tokenizer GenOps Cst SpecCst CstProofs Ast Abstract SpecAbstract SpecMove AbstractProofs.
Import ListNotations.
Local Open Scope list_scope.
Local Open Scope Z_scope.

(** ** Two computations in step, as long as the first one has fuel *)
Definition lk {A B} (F : A -> B) (r : res A) (r' : res B) : Prop := match r with OutOfFuel => True | _ => r' = rmap F r end.
Lemma lk_Ok : forall A B (F : A -> B) a b, b = F a -> lk F (Ok a) (Ok b).  Proof. intros A B F a b ->. reflexivity. Qed.
Lemma lk_Panic : forall A B (F : A -> B), lk F Panic Panic.  Proof. reflexivity. Qed.
Lemma lk_fuel : forall A B (F : A -> B) r, lk F OutOfFuel r.  Proof. intros. exact I. Qed.
Lemma lk_eq : forall A B (F : A -> B) r r', r' = rmap F r -> lk F r r'.  Proof. intros A B F [x| |] r' ->; reflexivity. Qed.
Lemma lk_bind : forall A A' B B' (F : A -> A') (G : B -> B') r r' k k',
  lk F r r' -> (forall x, r = Ok x -> lk G (k x) (k' (F x))) -> lk G (rbind r k) (rbind r' k').
Proof. intros A A' B B' F G [x| |] r' k k' H K; [rewrite H; exact (K x eq_refl)|rewrite H; reflexivity|exact I]. Qed.
Lemma lk_same : forall A B B' (G : B -> B') (r : res A) k k', (forall x, r = Ok x -> lk G (k x) (k' x)) -> lk G (rbind r k) (rbind r k').
Proof. intros A B B' G [x| |] k k' H; [exact (H x eq_refl)|reflexivity|exact I]. Qed.
Lemma lk_refl : forall A (r : res A), lk (fun x => x) r r.  Proof. intros A [x| |]; reflexivity. Qed.
Lemma lk_mapr : forall A A' B B' (h : A -> A') (F : B -> B') (f : A -> res B) (f' : A' -> res B') l,
  (forall a, In a l -> lk F (f a) (f' (h a))) -> lk (map F) (mapr f l) (mapr f' (map h l)).
Proof.
  intros A A' B B' h F f f' l H. induction l as [|a l IH]; [reflexivity|]. cbn [mapr map]. eapply lk_bind; [apply H; left; reflexivity|]. intros b _.
  eapply lk_bind; [apply IH; intros; apply H; right; auto|]. intros bs _. reflexivity.
Qed.
Lemma evens_map : forall A B (f : A -> B) l, evens (map f l) = map f (evens l).
Proof. intros A B f l. induction l as [|a|a b l IH] using pair_ind; cbn; congruence. Qed.
Lemma odds_map : forall A B (f : A -> B) l, odds (map f l) = map f (odds l).
Proof. intros A B f l. induction l as [|a|a b l IH] using pair_ind; cbn; congruence. Qed.
Lemma removelast_map : forall A B (f : A -> B) l, removelast (map f l) = map f (removelast l).
Proof. intros A B f l. induction l as [|a l IH]; [reflexivity|]. cbn. destruct l; [reflexivity|]. cbn in *. rewrite IH. reflexivity. Qed.
Lemma chunks_map : forall A B (f : A -> B) l, lk (map (fun p => (f (fst p), f (snd p)))) (chunks2 l) (chunks2 (map f l)).
Proof. intros A B f l. induction l as [|a|a b l IH] using pair_ind; cbn -[rbind]; try reflexivity. eapply lk_bind; [exact IH|]. intros ps _. reflexivity. Qed.
Lemma last_map : forall A B (f : A -> B) l d, last (map f l) (f d) = f (last l d).
Proof. intros A B f l d. induction l as [|a l IH]; [reflexivity|]. destruct l; [reflexivity|]. exact IH. Qed.
Lemma map_concat : forall A B (f : A -> B) ls, concat (map (map f) ls) = map f (concat ls).
Proof. intros. symmetry. apply concat_map. Qed.

Section move.
  (** [g] moves tokens, [sg] spans *)
  Variables (g : token -> token) (sg : span -> span).
  Hypothesis g_kind : forall t, t_kind (g t) = t_kind t.
  Hypothesis g_text : forall t, t_text (g t) = t_text t.
  Hypothesis g_src : forall t, t_src (g t) = sg (t_src t).

  Local Notation move := (move g sg).
  Local Notation move_source := (move_source sg).
  Local Notation move_issue := (move_issue sg).
  Local Notation move_meta := (move_meta sg).
  Local Notation move_ast := (move_ast sg).
  Definition move_negated (x : negated) : negated :=
    match x with Integer0 => Integer0 | IntegerNegated t => IntegerNegated (g t) | RealNegated t => RealNegated (g t) | InfixTimesSeq l => InfixTimesSeq (map move l) end.
  Definition move_oper (x : oper) : oper :=
    match x with OCst n => OCst (move n) | OReciprocate n d => OReciprocate (move n) (sg d) | ONegativeOne => ONegativeOne | ONegated x d => ONegated (move_negated x) (sg d) end.

  Variables (o : aopts) (rec rec' : cst -> res ast) (P : cst -> Prop).
  Hypothesis closed : forall m k, P m -> In k (nodes m) -> P k.
  Hypothesis Hsrc : forall m, P m -> get_source (move m) = rmap sg (get_source m).
  Hypothesis Hpair : forall op ch k t b s, P (Op KInfix op ch) -> nth_error ch (2 * k + 1) = Some (Tok t) -> nth_error ch (2 * k + 2) = Some b -> get_source b = Ok s ->
    span_between (sg (t_src t)) (sg s) = rmap sg (span_between (t_src t) s).
  Hypothesis Hrec : forall m, P m -> lk move_ast (rec m) (rec' (move m)).

  Lemma kids : forall k op ch, P (Op k op ch) -> Forall P ch.
  Proof. intros k op ch H. exact (P_op P closed _ _ _ H). Qed.
  Let in_P := P_in P.
  Ltac split_ch := repeat match goal with H : Forall P (_ :: _) |- _ => apply Forall_cons_iff in H as [? H] end.

  Lemma m_text : forall t, as_str (g t) = as_str t.
  Proof. intros t. unfold as_str. rewrite g_text. reflexivity. Qed.
  Lemma m_srcs : forall m, P m -> lk sg (get_source m) (get_source (move m)).
  Proof. intros m H; apply lk_eq, Hsrc, H. Qed.
  Lemma m_rec : forall l, Forall P l -> lk (map move_ast) (mapr rec l) (mapr rec' (map move l)).
  Proof. intros l H. apply lk_mapr. intros a Ha. apply Hrec. eapply in_P; eauto. Qed.

  Lemma m_call : forall s l d, move_ast (call s l d) = call s (map move_ast l) (move_meta d).
  Proof. reflexivity. Qed.
  Lemma m_call_src : forall s l d, move_ast (call s l (from_src d)) = call s (map move_ast l) (from_src (sg d)).
  Proof. reflexivity. Qed.

  Ltac lks := repeat first
    [ apply lk_Panic | apply lk_fuel | (apply lk_Ok; reflexivity)
    | (apply Hrec; split_ch; assumption)
    | (apply m_srcs; split_ch; assumption)
    | (eapply lk_bind; [solve [apply Hrec; split_ch; assumption]|intros ? ?])
    | (eapply lk_bind; [solve [apply m_srcs; split_ch; assumption]|intros ? ?])
    | (eapply lk_bind; [solve [apply m_rec; assumption]|intros ? ?])
    | (rewrite m_text; apply lk_same; intros ? ?) ].

  Lemma m_replace : forall t, lk move_ast (abstract_replace_token t) (abstract_replace_token (g t)).
  Proof.
    intros t. unfold abstract_replace_token. cbv zeta. rewrite g_kind, g_text, m_text, g_src.
    repeat match goal with |- lk _ (if ?b then _ else _) (if ?b then _ else _) => destruct b; [first [apply lk_Ok; reflexivity|apply lk_same; intros s _]|] end;
    try (apply lk_Ok; reflexivity). apply lk_Ok. destruct (find_spelling s SPECIAL_SYMBOLS); reflexivity.
  Qed.
  Lemma m_paren : forall n, parenthesizedIntegerOrRealQ (move n) = parenthesizedIntegerOrRealQ n.
  Proof.
    apply cst_ind'. intros n IH. rewrite Forall_forall in IH. destruct n as [t|[l|h] m op ch|e ch|k op ch|b ch src|a b src]; try reflexivity; cbn [move parenthesizedIntegerOrRealQ].
    - rewrite g_kind. reflexivity.
    - destruct k; try reflexivity. destruct (op =? _); auto. destruct ch as [|x [|c [|y [|? ?]]]]; try reflexivity. cbn [map]. apply IH. right. left. reflexivity.
  Qed.
  Lemma m_zero : forall n, possiblyNegatedZeroQ (move n) = possiblyNegatedZeroQ n.
  Proof.
    apply cst_ind'. intros n IH. rewrite Forall_forall in IH. destruct n as [t|[l|h] m op ch|e ch|k op ch|b ch src|a b src]; try reflexivity; cbn [move possiblyNegatedZeroQ].
    - rewrite g_kind, m_text. reflexivity.
    - destruct k; try reflexivity; destruct (op =? _); auto.
      + destruct ch as [|x [|c [|? ?]]]; try reflexivity. cbn [map]. apply IH. right. left. reflexivity.
      + destruct ch as [|x [|c [|y [|? ?]]]]; try reflexivity. cbn [map]. apply IH. right. left. reflexivity.
  Qed.
  Lemma m_negate : forall n, lk move_negated (negate n) (negate (move n)).
  Proof.
    apply cst_ind'. intros n IH. rewrite Forall_forall in IH. destruct n as [t|[l|h] m op ch|e ch|k op ch|b ch src|a b src]; try reflexivity.
    - cbn [move negate]. rewrite g_kind, m_text. destruct (t_kind t =? TK_Integer); [apply lk_same; intros s _; apply lk_Ok; destruct (zlist_eqb s [48]); reflexivity|]. destruct (t_kind t =? TK_Real); reflexivity.
    - destruct k; try reflexivity.
      + cbn [move negate]. destruct (op =? _); [|reflexivity]. destruct ch as [|x [|c r]]; try reflexivity. cbn [map]. rewrite m_zero. apply lk_same. intros z _. destruct z; [|reflexivity]. apply IH. right. left. reflexivity.
      + cbn [move negate]. destruct (op =? _); reflexivity.
      + cbn [move negate]. destruct (op =? _); [|reflexivity]. destruct ch as [|x [|c r]]; try reflexivity. cbn [map]. rewrite m_zero. apply lk_same. intros z _. destruct z; [apply IH; right; left; reflexivity|].
        replace (parenthesizedIntegerOrRealQ (Op KGroup op (move x :: move c :: map move r))) with (parenthesizedIntegerOrRealQ (Op KGroup op (x :: c :: r))) by (symmetry; exact (m_paren (Op KGroup op (x :: c :: r)))).
        apply lk_same. intros q _. destruct q; [|reflexivity]. destruct r as [|y [|? ?]]; try reflexivity. apply IH. right. left. reflexivity.
  Qed.
  Lemma m_quirk : forall n s, lk move (processInfixBinaryAtQuirk o n s) (processInfixBinaryAtQuirk o (move n) s).
  Proof.
    intros n s. unfold processInfixBinaryAtQuirk. destruct (negb _); [reflexivity|]. destruct n as [t|[l|h] m op ch|e ch|k op ch|b ch src|a b src]; try reflexivity. destruct k; try reflexivity.
    cbn [move]. destruct (op =? _); [|reflexivity]. destruct ch as [|x [|y [|z [|? ?]]]]; try reflexivity. cbn [map].
    eapply lk_bind; [|intros q _].
    - instantiate (1 := fun b => b). destruct x as [t|[l|h] m p ch|e ch|k p ch|b ch src|a b src]; try reflexivity. cbn [move]. rewrite g_kind, m_text. destruct (t_kind t =? _); [|reflexivity]. apply lk_same. intros u _. reflexivity.
    - cbn beta. destruct q; [|reflexivity]. destruct y as [t|[l|h] m p ch|e ch|k p ch|b ch src|a b src]; try reflexivity. cbn [move]. rewrite g_kind. destruct (t_kind t =? _); reflexivity.
  Qed.
  Lemma expected_map : forall sep l, forallb (is_expected_separator sep) (map move l) = forallb (is_expected_separator sep) l.
  Proof.
    intros sep l. induction l as [|n l IH]; [reflexivity|]. cbn [map forallb]. rewrite IH. f_equal. unfold is_expected_separator. destruct sep as [k|]; auto. destruct n as [t|[l2|h] m op ch|e ch|kk op ch|b ch src|a b src]; try reflexivity. cbn [move]. rewrite g_kind. reflexivity.
  Qed.
  Lemma m_span : forall sep l, lk (map move) (part_span_even_children o sep l) (part_span_even_children o sep (map move l)).
  Proof. intros sep l. unfold part_span_even_children. rewrite odds_map, expected_map, evens_map. destruct (_ && _); reflexivity. Qed.
  Lemma m_flatten : forall data n, lk (map move_oper) (flatten_times_cst o n data) (flatten_times_cst o (move n) (sg data)).
  Proof.
    intros data. apply cst_ind'. intros n IH. rewrite Forall_forall in IH. destruct n as [t|[l|h] m op ch|e ch|k op ch|b ch src|a b src]; try reflexivity. destruct k; try reflexivity; cbn [move flatten_times_cst].
    - destruct (op =? _); [|reflexivity]. destruct ch as [|x [|c [|? ?]]]; try reflexivity. cbn [map].
      replace (match move c with Tok t => if zin (t_kind t) [TK_Integer; TK_Real] then Ok true else parenthesizedIntegerOrRealQ (move c) | _ => parenthesizedIntegerOrRealQ (move c) end)
        with (match c with Tok t => if zin (t_kind t) [TK_Integer; TK_Real] then Ok true else parenthesizedIntegerOrRealQ c | _ => parenthesizedIntegerOrRealQ c end).
      + apply lk_same. intros q _. destruct q; [eapply lk_bind; [apply m_negate|]; intros y _; reflexivity|]. destruct (q_flatten_times o); [|reflexivity].
        eapply lk_bind; [apply IH; right; left; reflexivity|]. intros l _. reflexivity.
      + rewrite m_paren. destruct c as [t|[l|h] m p cs|e cs|kk p cs|b cs src|a b src]; try reflexivity. cbn [move]. rewrite g_kind. reflexivity.
    - destruct (op =? _); [|reflexivity]. rewrite odds_map, expected_map. destruct (_ && _); [reflexivity|]. rewrite !flatten_infix. rewrite evens_map.
      eapply lk_bind; [apply lk_mapr; intros a Ha; apply IH; apply evens_in; exact Ha|]. intros ls _. apply lk_Ok. rewrite map_concat. reflexivity.
    - destruct (op =? _); [|reflexivity]. destruct (q_flatten_times o); [|reflexivity]. destruct ch as [|x [|y [|z [|? ?]]]]; try reflexivity. cbn [map]. eapply lk_bind; [apply IH; left; reflexivity|]. intros l _. apply lk_Ok. rewrite map_app. reflexivity.
  Qed.
  Lemma m_number : forall x data, lk move_ast (negated_number x data) (negated_number (move_negated x) (sg data)).
  Proof. intros [|t|t|l] data; cbn [move_negated negated_number]; lks; rewrite ?m_text; try apply lk_same; intros; lks. Qed.
  Lemma m_reciprocate : forall n data, P n -> lk move_ast (reciprocate_into_ast rec n data) (reciprocate_into_ast rec' (move n) (sg data)).
  Proof. intros n data H. unfold reciprocate_into_ast. lks. Qed.
  Definition safe (x : oper) : Prop := match x with OCst n | OReciprocate n _ => P n | _ => True end.
  Lemma flatten_safe : forall data n l, P n -> flatten_times_cst o n data = Ok l -> Forall safe l.
  Proof.
    intros data. apply (cst_ind' (fun n => forall l, P n -> flatten_times_cst o n data = Ok l -> Forall safe l)). intros n IH l H E.
    assert (D : Ok [OCst n] = Ok l -> Forall safe l) by (intros [= <-]; constructor; [exact H|constructor]).
    rewrite Forall_forall in IH. destruct n as [t|h m op body|e ch|k op ch|b ch src|a b src]; try (apply D; exact E).
    pose proof (kids _ _ _ H) as Hch. destruct k; try (apply D; exact E); cbn [flatten_times_cst] in E.
    - destruct (op =? PREOP_Minus) eqn:Eo; [|apply D; exact E]. destruct ch as [|t [|c [|? ?]]]; try discriminate E. split_ch. apply rbind_Ok in E as (q & _ & E).
      destruct q; [apply rbind_Ok in E as (x & Eg & E); injection E as <-; constructor; [exact I|constructor]|].
      destruct (q_flatten_times o); [|apply D; exact E]. apply rbind_Ok in E as (r & Er & E). injection E as <-. constructor; [exact I|]. refine (IH c _ r _ Er); [right; left; reflexivity|assumption].
    - destruct (op =? IOP_Times) eqn:Eo; [|apply D; exact E]. destruct (a_dbg o && _); [discriminate E|]. rewrite flatten_infix in E.
      apply rbind_Ok in E as (ls & E & X). injection X as <-. apply mapr_Ok in E. clear D.
      assert (K : forall cs, (forall c, In c cs -> In c ch) -> Forall2 (fun a b => flatten_times_cst o a data = Ok b) cs ls -> Forall safe (concat ls)).
      { intros cs Hc F. clear E. induction F as [|c b cs bs E F IHF]; cbn; [constructor|]. apply Forall_app. split; [|apply IHF; intros; apply Hc; right; auto].
        assert (Hin : In c ch) by (apply Hc; left; reflexivity). refine (IH c Hin _ _ E). eapply in_P; eauto. }
      eapply K; [|exact E]. intros c. apply evens_in.
    - destruct (op =? BOP_Divide) eqn:Eo; [|apply D; exact E]. destruct (q_flatten_times o); [|apply D; exact E].
      destruct ch as [|a [|t [|b [|? ?]]]]; try discriminate E. split_ch. apply rbind_Ok in E as (r & Er & E). injection E as <-. apply Forall_app. split; [refine (IH a _ r _ Er); [left; reflexivity|assumption]|]. constructor; [assumption|constructor].
  Qed.
  Lemma m_operand : forall f f' x, (forall m, P m -> lk move_ast (f m) (f' (move m))) -> safe x -> lk move_ast (operand_into_ast rec f x) (operand_into_ast rec' f' (move_oper x)).
  Proof. intros f f' [n|n d| |x d] Hf H; cbn [operand_into_ast move_oper safe] in *; [auto|apply m_reciprocate; auto|reflexivity|apply m_number]. Qed.
  Lemma m_quirk_rec : forall s m, P m -> lk move_ast (rbind (processInfixBinaryAtQuirk o m s) rec) (rbind (processInfixBinaryAtQuirk o (move m) s) rec').
  Proof. intros s m H. eapply lk_bind; [apply m_quirk|]. intros k Ek. apply Hrec. eapply closed; eauto. eapply at_quirk; eauto. Qed.
  Lemma m_times : forall l data, Forall P l -> lk move_ast (abstractTimes_InfixNode o rec l data) (abstractTimes_InfixNode o rec' (map move l) (sg data)).
  Proof.
    intros l data H. unfold abstractTimes_InfixNode, flattenTimes. eapply lk_bind.
    - instantiate (1 := map move_oper). eapply lk_bind; [apply lk_mapr; intros a _; apply m_flatten|]. intros ls _. apply lk_Ok. apply map_concat.
    - intros fl E. apply rbind_Ok in E as (ls & E & X). injection X as <-. apply mapr_Ok in E.
      assert (S : Forall safe (concat ls)) by (induction E as [|c b cs bs E F IH]; cbn; [constructor|]; split_ch; apply Forall_app; split; auto; eapply flatten_safe; eauto).
      eapply lk_bind; [|intros args _; apply lk_Ok; reflexivity]. apply lk_mapr. intros x Hx. apply m_operand; [|rewrite Forall_forall in S; auto]. intros m Hm. exact (m_quirk_rec (bytes_of_string "Times") m Hm).
  Qed.
  Lemma m_negated : forall n x data, negate n = Ok x -> P n -> lk move_ast (negated_into_ast o rec x data) (negated_into_ast o rec' (move_negated x) (sg data)).
  Proof.
    intros n x data E H. destruct x as [|t|t|l]; try exact (m_number _ data). cbn [negated_into_ast move_negated]. eapply lk_bind; [apply m_span|]. intros cs Ec. apply span_even in Ec. subst cs.
    eapply lk_bind; [apply m_times, P_evens; eapply negate_seq; eauto|]. intros a _. destruct a; reflexivity.
  Qed.
  Lemma m_flatten_plus : forall n, lk move (flattenPrefixPlus n) (flattenPrefixPlus (move n)).
  Proof.
    apply cst_ind'. intros n IH. rewrite Forall_forall in IH. destruct n as [t|[l|h] m op ch|e ch|k op ch|b ch src|a b src]; try reflexivity. destruct k; try reflexivity. cbn [move flattenPrefixPlus].
    destruct (op =? _); [|reflexivity]. destruct ch as [|x [|c [|? ?]]]; try reflexivity. cbn [map]. apply IH. right. left. reflexivity.
  Qed.
  Lemma m_prefix_plus : forall data n, P n -> lk move_ast (abstractPrefixPlus rec n data) (abstractPrefixPlus rec' (move n) (sg data)).
  Proof.
    intros data. apply (cst_ind' (fun n => P n -> lk move_ast (abstractPrefixPlus rec n data) (abstractPrefixPlus rec' (move n) (sg data)))). intros n IH H. rewrite Forall_forall in IH.
    assert (K : lk move_ast (rbind (rec n) (fun a => Ok (call "System`Plus" [a] (from_src data)))) (rbind (rec' (move n)) (fun a => Ok (call "System`Plus" [a] (from_src (sg data)))))) by lks.
    destruct n as [t|[l|h] m op ch|e ch|k op ch|b ch src|a b src]; try exact K. destruct k; try exact K. cbn [move abstractPrefixPlus]. destruct (op =? _); [|exact K].
    pose proof (kids _ _ _ H) as Hc. destruct ch as [|x [|c [|? ?]]]; try reflexivity. cbn [map]. split_ch. apply IH; auto. right. left. reflexivity.
  Qed.
  Lemma m_plus_pair : forall op ch k x y, P (Op KInfix op ch) -> nth_error ch (2 * k + 1) = Some x -> nth_error ch (2 * k + 2) = Some y -> lk move_oper (processPlusPair x y) (processPlusPair (move x) (move y)).
  Proof.
    intros op ch k x y H H1 H2. assert (Hy : P y) by (eapply in_P; [eapply kids; eauto|]; eapply nth_error_In; eauto). unfold processPlusPair. destruct x as [t|[l|h] m p cs|e cs|kk p cs|b cs src|a b src]; try reflexivity. cbn [move]. rewrite g_kind.
    destruct (zin _ _); [reflexivity|]. destruct (zin _ _); [|reflexivity]. eapply lk_bind; [apply m_srcs; exact Hy|]. intros s Es. rewrite g_src.
    eapply lk_bind; [apply lk_eq; eapply Hpair; eauto|]. intros s2 _. eapply lk_bind; [apply m_negate|]. intros z _. reflexivity.
  Qed.
  Lemma m_plus : forall ch data, P (Op KInfix IOP_Plus ch) -> lk move_ast (abstractPlus o rec ch data) (abstractPlus o rec' (map move ch) (sg data)).
  Proof.
    intros ch data H. pose proof (kids _ _ _ H) as Hc. unfold abstractPlus. destruct ch as [|first r]; [reflexivity|]. cbn [map]. eapply lk_bind; [apply chunks_map|]. intros ps Ep.
    assert (Q : forall k x y, nth_error ps k = Some (x, y) -> nth_error (first :: r) (2 * k + 1) = Some x /\ nth_error (first :: r) (2 * k + 2) = Some y).
    { intros k x y Hk. assert (E : nth_error r (2 * k) = Some x /\ nth_error r (2 * k + 1) = Some y).
      { clear - Ep Hk. revert ps k Ep Hk. induction r as [|a|a b l IH] using pair_ind; intros ps k E H; cbn -[rbind] in E.
        - injection E as <-. destruct k; discriminate H.
        - discriminate E.
        - apply rbind_Ok in E as (ps' & E & X). injection X as <-. destruct k as [|k]; [injection H as <- <-; split; reflexivity|]. replace (2 * S k)%nat with (S (S (2 * k))) by lia. exact (IH _ _ E H). }
      replace (2 * k + 1)%nat with (S (2 * k)) by lia. replace (2 * k + 2)%nat with (S (2 * k + 1)) by lia. exact E. }
    eapply lk_bind; [apply (lk_mapr _ _ _ _ (fun p => (move (fst p), move (snd p))) move_oper); intros [x y] Hin; apply In_nth_error in Hin as (k & Hk); destruct (Q k x y Hk); eapply m_plus_pair; eauto|].
    intros xs Ex. apply mapr_Ok in Ex. change (OCst (move first) :: map move_oper xs) with (map move_oper (OCst first :: xs)).
    eapply lk_bind; [|intros args _; apply lk_Ok; reflexivity]. apply lk_mapr. intros z Hz.
    assert (K : forall n, P n -> lk move_ast (rbind (processInfixBinaryAtQuirk o n (bytes_of_string "Plus")) (fun m => rbind (flattenPrefixPlus m) (fun m => rec m)))
        (rbind (processInfixBinaryAtQuirk o (move n) (bytes_of_string "Plus")) (fun m => rbind (flattenPrefixPlus m) (fun m => rec' m)))).
    { intros n Hn. eapply lk_bind; [apply m_quirk|]. intros m Em. eapply lk_bind; [apply m_flatten_plus|]. intros k Ek. apply Hrec. apply flatten_plus_in in Ek. eapply closed; [|exact Ek]. eapply closed; [exact Hn|]. eapply at_quirk; eauto. }
    destruct Hz as [<-|Hz]; [apply K; split_ch; assumption|].
    assert (S : exists x y, In (x, y) ps /\ processPlusPair x y = Ok z).
    { clear - Ex Hz. induction Ex as [|[x y] b ps bs E F IH]; [contradiction|]. destruct Hz as [<-|Hz]; [exists x, y; split; [left; reflexivity|exact E]|]. destruct (IH Hz) as (x' & y' & H1 & H2). exists x', y'. split; [right; exact H1|exact H2]. }
    destruct S as (x & y & Hin & Ez). assert (Hy : P y). { apply In_nth_error in Hin as (k & Hk). destruct (Q k x y Hk) as [_ E2]. eapply in_P; [exact Hc|]. eapply nth_error_In; eauto. }
    unfold processPlusPair in Ez. destruct x as [t| | | | |]; try discriminate Ez. destruct (zin _ _); [injection Ez as <-; apply K; exact Hy|]. destruct (zin _ _); [|discriminate Ez].
    apply rbind_Ok in Ez as (s & _ & Ez). apply rbind_Ok in Ez as (s2 & _ & Ez). apply rbind_Ok in Ez as (w & Ew & Ez). injection Ez as <-. cbn [move_oper]. eapply m_negated; eauto.
  Qed.
  Lemma m_derivative : forall n, P n -> lk (fun p => (fst p, move_ast (snd p))) (derivativeOrderAndAbstractedBody rec n) (derivativeOrderAndAbstractedBody rec' (move n)).
  Proof.
    apply (cst_ind' (fun n => P n -> lk (fun p => (fst p, move_ast (snd p))) (derivativeOrderAndAbstractedBody rec n) (derivativeOrderAndAbstractedBody rec' (move n)))). intros n IH H. rewrite Forall_forall in IH.
    assert (K : lk (fun p => (fst p, move_ast (snd p))) (rbind (rec n) (fun a => Ok (0, a))) (rbind (rec' (move n)) (fun a => Ok (0, a)))) by lks.
    destruct n as [t|[l|h] m op ch|e ch|k op ch|b ch src|a b src]; try exact K. destruct k; try exact K. cbn [move derivativeOrderAndAbstractedBody]. destruct (op =? _); [|exact K].
    pose proof (kids _ _ _ H) as Hc. destruct ch as [|x [|c [|? ?]]]; try reflexivity. cbn [map]. split_ch. eapply lk_bind; [apply IH; auto; left; reflexivity|]. intros [z y] _. reflexivity.
  Qed.
  Lemma m_message : forall l data, Forall P l -> lk move_ast (abstractMessageName o rec l data) (abstractMessageName o rec' (map move l) (sg data)).
  Proof.
    intros l data H. unfold abstractMessageName. destruct l as [|x r]; [reflexivity|]. cbn [map]. cbv zeta. split_ch. eapply lk_bind; [apply Hrec; auto|]. intros a _.
    eapply lk_bind; [|intros args _; apply lk_Ok; unfold zlen; rewrite map_length; destruct (2 <? Z.of_nat (length r)); reflexivity].
    apply lk_mapr. intros n Hn. assert (Pn : P n) by (eapply in_P; eauto). pose proof (Hrec n Pn) as K. destruct n as [t|[l|h] m op ch|e ch|k op ch|b ch src|a0 b src]; try exact K. cbn [move] in *. rewrite g_kind, m_text, g_src. destruct (_ =? _); [|exact K]. lks. apply lk_same. intros s _. reflexivity.
  Qed.
  Lemma m_simplify : forall first r aff data, move_ast (simplifyInfixInequality first r aff data) = simplifyInfixInequality (move_ast first) (map (fun p => (fst p, move_ast (snd p))) r) aff (sg data).
  Proof.
    intros first r aff data. unfold simplifyInfixInequality. cbv zeta.
    assert (E : forall needle, forallb (fun p : string * ast => String.eqb (fst p) needle) (map (fun p => (fst p, move_ast (snd p))) r) = forallb (fun p => String.eqb (fst p) needle) r).
    { intros needle. induction r as [|p r IH]; [reflexivity|]. cbn. rewrite IH. reflexivity. }
    assert (F : forall l, find (fun needle => forallb (fun p : string * ast => String.eqb (fst p) needle) (map (fun p => (fst p, move_ast (snd p))) r)) l = find (fun needle => forallb (fun p => String.eqb (fst p) needle) r) l).
    { intros l. induction l as [|x l IH]; [reflexivity|]. cbn [find]. rewrite E, IH. reflexivity. }
    assert (M : map snd (map (fun p : string * ast => (fst p, move_ast (snd p))) r) = map move_ast (map snd r)) by (rewrite !map_map; reflexivity).
    rewrite !F, M. destruct (find _ SIMPLE_CHAINS); [reflexivity|]. destruct (find _ VECTOR_CHAINS); [reflexivity|].
    assert (L : flat_map (fun '(s, a) => [symbol_leaf s no_meta; a]) (map (fun p : string * ast => (fst p, move_ast (snd p))) r) = map move_ast (flat_map (fun '(s, a) => [symbol_leaf s no_meta; a]) r)).
    { clear. induction r as [|[s a] r IH]; [reflexivity|]. cbn. rewrite IH. reflexivity. }
    rewrite L. destruct aff as [[]|]; reflexivity.
  Qed.
  Lemma m_inequality : forall data ps first r aff, (forall t c, In (t, c) ps -> P c) ->
    lk move_ast (inequality_loop rec ps first r aff data) (inequality_loop rec' (map (fun p => (g (fst p), move (snd p))) ps) (move_ast first) (map (fun p => (fst p, move_ast (snd p))) r) aff (sg data)).
  Proof.
    intros data ps. induction ps as [|[t c] ps IH]; intros first r aff H; cbn [inequality_loop map fst snd]; [apply lk_Ok; symmetry; apply m_simplify|]. rewrite g_kind. apply lk_same. intros s _.
    assert (Hc : P c) by (eapply H; left; reflexivity). assert (H' : forall t c, In (t, c) ps -> P c) by (intros; eapply H; right; eauto). eapply lk_bind; [apply Hrec; exact Hc|]. intros a _. apply lk_same. intros v _.
    assert (E : map (fun p => (fst p, move_ast (snd p))) r ++ [(s, move_ast a)] = map (fun p => (fst p, move_ast (snd p))) (r ++ [(s, a)])) by (rewrite map_app; reflexivity).
    destruct v as [b|]; [destruct (match aff with Some b' => _ | None => _ end)|].
    - rewrite <- m_simplify. exact (IH _ [(s, a)] _ H').
    - rewrite E. apply IH. exact H'.
    - rewrite E. apply IH. exact H'.
  Qed.
  Lemma m_inequalities : forall l data, Forall P l -> lk move_ast (abstractInfixInequality rec l data) (abstractInfixInequality rec' (map move l) (sg data)).
  Proof.
    intros l data H. unfold abstractInfixInequality. destruct l as [|first r]; [reflexivity|]. cbn [map]. split_ch. eapply lk_bind; [apply Hrec; auto|]. intros a _. eapply lk_bind; [apply chunks_map|]. intros ps Ep.
    eapply lk_bind; [apply (lk_mapr _ _ _ _ (fun p => (move (fst p), move (snd p))) (fun p => (g (fst p), move (snd p)))); intros [x y] _; destruct x as [t|[l|h] m p cs|e cs|kk p cs|b cs src|x1 x2 src]; reflexivity|].
    intros qs Eq. apply (m_inequality data qs a [] None). intros t c Hin. apply mapr_Ok in Eq.
    assert (S : In (Tok t, c) ps).
    { clear - Eq Hin. induction Eq as [|[x y] [t' c'] ps qs E F IH]; [contradiction|]. destruct Hin as [[= -> ->]|Hin]; [left; destruct x; try discriminate E; injection E as <- <-; reflexivity|right; auto]. }
    destruct (chunks_in _ _ _ _ _ Ep S) as [_ Hc]. eapply in_P; eauto.
  Qed.
  Lemma m_tilde_rest : forall r lhs data, Forall P r -> lk move_ast (abstractInfixTilde_rest rec lhs r data) (abstractInfixTilde_rest rec' (move_ast lhs) (map move r) (move_meta data)).
  Proof.
    intros r. induction r as [|a|a b l IH] using pair_ind; intros lhs data H; cbn [map abstractInfixTilde_rest]; split_ch; [reflexivity|lks|].
    destruct l as [|c l]; [lks|]. cbn [map]. eapply lk_bind; [apply Hrec; auto|]. intros x _. eapply lk_bind; [apply Hrec; auto|]. intros y _. exact (IH (ACall x [lhs; y] no_meta) data H).
  Qed.
  Lemma m_tilde : forall l data, Forall P l -> lk move_ast (abstractInfixTilde rec l data) (abstractInfixTilde rec' (map move l) (move_meta data)).
  Proof.
    intros l data H. unfold abstractInfixTilde. destruct l as [|a [|b [|c [|d l]]]]; cbn [map]; try reflexivity.
    - split_ch. lks.
    - apply Forall_cons_iff in H as [Ha H]. eapply lk_bind; [apply Hrec; auto|]. intros x _. exact (m_tilde_rest [b; c] x data H).
    - split_ch. eapply lk_bind; [apply Hrec; auto|]. intros x _. eapply lk_bind; [apply (m_tilde_rest [b; c] x no_meta); repeat constructor; auto|]. intros y _. apply (m_tilde_rest (d :: l) y data). constructor; auto.
  Qed.
  Lemma m_select : forall a, selectChildren (move_ast a) = map move_ast (selectChildren a).
  Proof. intros a. destruct a as [| |h l d| | | | | | | | | |]; try reflexivity. destruct h; try reflexivity. cbn [move_ast selectChildren]. destruct (_ && _); reflexivity. Qed.
  Lemma m_selects : forall l, flat_map selectChildren (map move_ast l) = map move_ast (flat_map selectChildren l).
  Proof. intros l. induction l as [|a l IH]; [reflexivity|]. cbn [map flat_map]. rewrite m_select, IH, map_app. reflexivity. Qed.
  Lemma m_drop : forall l, lk (map move) (part_span_drop_first_and_last l) (part_span_drop_first_and_last (map move l)).
  Proof. intros l. unfold part_span_drop_first_and_last. destruct l as [|a [|b r]]; try reflexivity. apply lk_Ok. apply (removelast_map _ _ move (b :: r)). Qed.
  Lemma drop_P : forall l cs, Forall P l -> part_span_drop_first_and_last l = Ok cs -> Forall P cs.
  Proof. intros l cs H E. unfold part_span_drop_first_and_last in E. destruct l as [|a [|b r]]; try discriminate E. injection E as <-. split_ch. apply (P_removelast P (b :: r)). constructor; auto. Qed.
  Lemma m_group_args : forall ch, Forall P ch -> lk (map move_ast) (abstractGroupNode rec ch) (abstractGroupNode rec' (map move ch)).
  Proof.
    intros ch H. unfold abstractGroupNode. eapply lk_bind; [apply m_drop|]. intros cs E. eapply lk_bind; [apply m_rec; eapply drop_P; eauto|]. intros l _. apply lk_Ok. apply m_selects.
  Qed.
  Lemma m_missing : forall ch, Forall P ch -> lk (map move_ast) (abstractGroupMissingCloser rec ch) (abstractGroupMissingCloser rec' (map move ch)).
  Proof. intros ch H. unfold abstractGroupMissingCloser. destruct ch as [|a r]; [reflexivity|]. cbn [map]. split_ch. eapply lk_bind; [apply m_rec; auto|]. intros l _. apply lk_Ok. apply m_selects. Qed.
  Lemma m_missing_opener : forall ch, Forall P ch -> lk (map move_ast) (abstractGroupMissingOpener rec ch) (abstractGroupMissingOpener rec' (map move ch)).
  Proof. intros ch H. unfold abstractGroupMissingOpener. rewrite removelast_map. eapply lk_bind; [apply m_rec; apply P_removelast; auto|]. intros l _. apply lk_Ok. apply m_selects. Qed.
  Lemma m_comma : forall ch e data, Forall P ch -> lk move_ast (rbind (part_span_even_children o None ch) (fun cs => rbind (mapr rec cs) (fun l => Ok (AAbstractSyntaxError e l (from_src data)))))
    (rbind (part_span_even_children o None (map move ch)) (fun cs => rbind (mapr rec' cs) (fun l => Ok (AAbstractSyntaxError e l (from_src (sg data)))))).
  Proof. intros ch e data H. eapply lk_bind; [apply m_span|]. intros cs E. apply span_even in E. subst. eapply lk_bind; [apply m_rec, P_evens; auto|]. intros l _. reflexivity. Qed.
  Lemma m_paren_node : forall ch data, Forall P ch -> lk move_ast (abstract_paren o rec ch data) (abstract_paren o rec' (map move ch) (sg data)).
  Proof.
    intros ch data H. unfold abstract_paren.
    assert (K : lk move_ast (rbind (part_span_drop_first_and_last ch) (fun cs => rbind (mapr rec cs) (fun l => Ok (AAbstractSyntaxError OpenParen l (from_src data)))))
       (rbind (part_span_drop_first_and_last (map move ch)) (fun cs => rbind (mapr rec' cs) (fun l => Ok (AAbstractSyntaxError OpenParen l (from_src (sg data))))))).
    { eapply lk_bind; [apply m_drop|]. intros cs E. eapply lk_bind; [apply m_rec; eapply drop_P; eauto|]. intros l _. reflexivity. }
    destruct ch as [|a [|b [|c [|? ?]]]]; try exact K. clear K. cbn [map]. split_ch. pose proof (Hrec b H1) as Kb. destruct b as [t|[l|h] m op ch|e ch|k op ch|b ch src|x y src]; try exact Kb. cbn [move] in *. destruct k; try exact Kb.
    destruct (op =? _); [|exact Kb]. apply m_comma. eapply kids; eauto.
  Qed.
  Lemma m_naked : forall e ch data, Forall P ch -> lk move_ast (abstract_naked o rec e ch data) (abstract_naked o rec' e (map move ch) (sg data)).
  Proof.
    intros e ch data H. unfold abstract_naked. destruct ch as [|a [|b [|c [|? ?]]]]; try reflexivity. cbn [map]. split_ch.
    assert (Kb : lk move_ast (rbind (rec b) (fun a => Ok (AAbstractSyntaxError e [a] (from_src data)))) (rbind (rec' (move b)) (fun a => Ok (AAbstractSyntaxError e [a] (from_src (sg data)))))) by lks.
    destruct b as [t|[l|h] m op ch|er ch|k op ch|b ch src|x y src]; try exact Kb. cbn [move] in *. destruct k; try exact Kb. destruct (op =? _); [|exact Kb]. apply m_comma. eapply kids; eauto.
  Qed.
  Lemma m_fine : forall extra n, fine_head extra (move n) = fine_head extra n.
  Proof. intros extra n. destruct n as [t|[l|h] m op ch|e ch|k op ch|b ch src|x y src]; try reflexivity. cbn [move fine_head]. rewrite g_kind. reflexivity. Qed.
  Lemma m_slot : forall n, slot_sequence_head (move n) = slot_sequence_head n.
  Proof. intros n. destruct n as [t|[l|h] m op ch|e ch|k op ch|b ch src|x y src]; try reflexivity. cbn [move slot_sequence_head]. rewrite g_kind. reflexivity. Qed.
  Lemma m_call_issue : forall n, call_issue (move n) = call_issue n.
  Proof. intros n. unfold call_issue. rewrite m_fine, m_slot. destruct (slot_sequence_head n); [reflexivity|]. destruct (fine_head [TK_String] n); [reflexivity|]. destruct n as [t|[l|h] m op ch|e ch|k op ch|b ch src|x y src]; reflexivity. Qed.
  Lemma m_part_issue : forall n, part_issue (move n) = part_issue n.
  Proof. intros n. unfold part_issue. rewrite m_fine, m_slot. destruct (slot_sequence_head n); [reflexivity|]. destruct (fine_head [] n); [reflexivity|]. destruct n as [t|[l|h] m op ch|e ch|k op ch|b ch src|x y src]; try reflexivity. cbn [move]. rewrite g_kind. reflexivity. Qed.
  Lemma last_P : forall (l : list cst) d, Forall P l -> P d -> P (last l d).
  Proof. intros l d H Hd. induction H as [|a l Ha H IH]; [exact Hd|]. cbn. destruct l; auto. Qed.
  Lemma m_issue : forall i ch, Forall P ch -> lk (map move_issue) (issue_between i ch) (issue_between i (map move ch)).
  Proof.
    intros i ch H. unfold issue_between. destruct i as [[[a b] c]|]; [|reflexivity]. destruct ch as [|x r]; [reflexivity|]. cbn [map]. change (move x :: map move r) with (map move (x :: r)). rewrite last_map.
    assert (P (last (x :: r) x)) by (apply last_P; auto; split_ch; auto). eapply lk_bind; [apply m_srcs; split_ch; auto|]. intros s _. eapply lk_bind; [apply m_srcs; auto|]. intros s2 _. reflexivity.
  Qed.
  Lemma m_call_node : forall h m op ch data, P (Call h m op ch) -> 
    lk move_ast (abstract_call_node rec h m op ch data) (match move (Call h m op ch) with Call h' m op ch' => abstract_call_node rec' h' m op ch' (sg data) | _ => Panic end).
  Proof.
    intros h m op ch data H. pose proof (P_children P closed _ H) as Hc. destruct h as [l|head]; [reflexivity|]. cbn [move]. rewrite children_call in Hc. cbn [app] in Hc. apply Forall_cons_iff in Hc as [Hh Hc].
    unfold abstract_call_node. cbv zeta. destruct m.
    - eapply lk_bind; [apply Hrec; auto|]. intros a _. eapply lk_bind; [apply m_missing; auto|]. intros l _. destruct (op =? _); [reflexivity|]. destruct (op =? _); reflexivity.
    - assert (K : lk move_ast (rbind (issue_between (call_issue head) ch) (fun issues => rbind (rec head) (fun a => rbind (abstractGroupNode rec ch) (fun l => Ok (ACall a l (mk_ameta (Known data) issues))))))
        (rbind (issue_between (call_issue (move head)) (map move ch)) (fun issues => rbind (rec' (move head)) (fun a => rbind (abstractGroupNode rec' (map move ch)) (fun l => Ok (ACall a l (mk_ameta (Known (sg data)) issues))))))).
      { rewrite m_call_issue. eapply lk_bind; [apply m_issue; auto|]. intros i _. eapply lk_bind; [apply Hrec; auto|]. intros a _. eapply lk_bind; [apply m_group_args; auto|]. intros l _. reflexivity. }
      destruct (op =? _).
      + destruct ch as [|x [|y r]]; try reflexivity. destruct y as [t|[l|h] m2 op2 ch2|e ch2|k op2 ch2|b ch2 src|a b src]; try exact K. destruct k; try exact K. cbn [map move] in *. destruct (op2 =? _); [|exact K]. clear K.
        destruct r as [|z [|? ?]]; try reflexivity. rewrite m_part_issue. eapply lk_bind; [apply (m_issue _ [x; Op KGroup op2 ch2; z]); auto|]. intros i _. eapply lk_bind; [apply Hrec; auto|]. intros a _. split_ch.
        eapply lk_bind; [apply m_group_args; eapply kids; eauto|]. intros l _. reflexivity.
      + destruct (op =? _).
        * eapply lk_bind; [apply m_srcs; auto|]. intros s _. eapply lk_bind; [apply Hrec; auto|]. intros a _. eapply lk_bind; [apply m_group_args; auto|]. intros l _. apply lk_Ok.
          destruct head as [t|[l2|h] m2 op2 ch2|e ch2|k op2 ch2|b ch2 src|x b src]; try reflexivity. cbn [move]. rewrite g_kind. destruct (_ =? _); reflexivity.
        * destruct ch as [|x r]; [reflexivity|]. cbn [map]. rewrite m_part_issue. eapply lk_bind; [apply (m_issue _ (x :: r)); auto|]. intros i _. eapply lk_bind; [apply Hrec; auto|]. intros a _. eapply lk_bind; [apply (m_group_args (x :: r)); auto|]. intros l _. reflexivity.
  Qed.
  Lemma m_leaf : forall k n, leaf_of k (move n) = leaf_of k n.
  Proof. intros k n. destruct n as [t|[l|h] m op ch|e ch|kk op ch|b ch src|x y src]; try reflexivity. cbn [move leaf_of]. rewrite g_kind. reflexivity. Qed.
  Lemma m_subscript : forall kind ch data, Forall P ch -> lk (option_map move_ast) (try_subscript rec kind ch data) (try_subscript rec' kind (map move ch) (sg data)).
  Proof.
    intros kind ch data H. unfold try_subscript. destruct (kind =? _); [|reflexivity]. destruct ch as [|a [|b r]]; try reflexivity. cbn [map]. split_ch. eapply lk_bind; [apply m_srcs; auto|]. intros d1 _.
    destruct b as [t|[l|h] m op cs|e cs|k op cs|b cs src|x y src]; try reflexivity. destruct k; try reflexivity. cbn [move]. match goal with K : P (Op KGroup op cs) |- _ => apply kids in K; rename K into Hcs end. destruct (op =? _).
    - destruct cs as [|o1 [|gr [|c1 [|? ?]]]]; try reflexivity. cbn [map]. split_ch. rewrite !m_leaf. destruct (_ && _); [|reflexivity]. eapply lk_bind; [apply m_srcs; auto|]. intros d2 _.
      destruct gr as [t|[l|h] m op2 cs|e cs|k op2 cs|b cs src|x y src]; try reflexivity. destruct k; try reflexivity. cbn [move]. match goal with K : P (Op KGroup op2 cs) |- _ => apply kids in K; rename K into Hcs2 end. destruct (op2 =? _); [|reflexivity].
      destruct cs as [|o2 [|bb [|c2 [|? ?]]]]; try reflexivity. cbn [map]. split_ch. rewrite !m_leaf. destruct (_ && _); [|reflexivity]. lks.
    - destruct (op =? _); [|reflexivity]. destruct cs as [|x [|bb [|c [|? ?]]]]; try reflexivity. cbn [map]. split_ch. rewrite !m_leaf. destruct (_ && _); [|reflexivity]. lks.
  Qed.
  Lemma m_superscript : forall kind ch data, Forall P ch -> lk (option_map move_ast) (try_superscript rec kind ch data) (try_superscript rec' kind (map move ch) (sg data)).
  Proof.
    intros kind ch data H. unfold try_superscript. destruct (kind =? _); [|reflexivity]. destruct ch as [|a [|b r]]; try reflexivity. cbn [map]. split_ch.
    destruct b as [t|[l|h] m op cs|e cs|k op cs|k1 cs src|x y src]; try reflexivity. cbn [move]. match goal with K : P (BoxN _ _ _) |- _ => apply (P_children P closed) in K; cbn [children] in K; rename K into Hcs end. destruct (k1 =? _); [|reflexivity].
    destruct cs as [|lhs [|t [|? ?]]]; try reflexivity. cbn [map]. split_ch. eapply lk_bind; [apply m_srcs; auto|]. intros d2 _.
    destruct lhs as [u|[l|h] m op cs|e cs|k op cs|k2 cs src2|x y src2]; try reflexivity. destruct k; try reflexivity. cbn [move]. match goal with K : P (Op KGroup op cs) |- _ => apply kids in K; rename K into Hcs2 end. destruct (op =? _); [|reflexivity].
    destruct t as [u|[l|h] m op3 cs3|e cs3|k op3 cs3|k2 cs3 src2|x y src2]; try reflexivity. cbn [move]. destruct (_ && _); [|reflexivity]. destruct cs as [|x1 [|bb [|c [|? ?]]]]; try reflexivity. cbn [map]. split_ch. rewrite !m_leaf. destruct (_ && _); [|reflexivity]. lks.
  Qed.
  Lemma m_box : forall kind ch data, Forall P ch -> lk move_ast (abstract_box_node rec kind ch data) (abstract_box_node rec' kind (map move ch) (sg data)).
  Proof.
    intros kind ch data H. unfold abstract_box_node. destruct (zin _ _); [reflexivity|]. eapply lk_bind; [apply m_subscript; auto|]. intros x _. destruct x; [reflexivity|]. cbn [option_map].
    eapply lk_bind; [apply m_superscript; auto|]. intros x _. destruct x; [reflexivity|]. cbn [option_map]. eapply lk_bind; [apply m_rec; auto|]. intros l _. reflexivity.
  Qed.
  Lemma m_compound : forall op ch data, Forall P ch -> lk move_ast (abstract_compound o rec op ch data) (abstract_compound o rec' op (map move ch) (sg data)).
  Proof.
    intros op ch data H. unfold abstract_compound. destruct ch as [|x [|y [|? ?]]]; try reflexivity. cbn [map]. split_ch. destruct (zin _ _); [lks|]. destruct (zin _ _); [lks|]. destruct (op =? _).
    - destruct y as [u|[l|h] m p cs|e cs|k p cs|k2 cs src|z w src]; try reflexivity. cbn [move]. rewrite g_kind, g_src. destruct (_ =? _); [|reflexivity]. lks.
    - destruct (op =? _).
      + destruct y as [u|[l|h] m p cs|e cs|k p cs|k2 cs src|z w src]; try reflexivity. cbn [move]. rewrite g_kind, g_src, m_text. destruct (_ =? _); [eapply lk_bind; [apply m_replace|]; intros a _; reflexivity|]. destruct (zin _ _); [|reflexivity]. apply lk_same. intros s _. reflexivity.
      + pose proof (Hrec y H1) as Ky. destruct y as [u|[l|h] m p cs|e cs|k p cs|k2 cs src|z w src]; try reflexivity. cbn [move] in *. rewrite g_kind. destruct (_ =? _); [|reflexivity]. eapply lk_bind; [exact Ky|]. intros a _. reflexivity.
  Qed.
  Lemma m_prefix : forall op ch data, Forall P ch -> lk move_ast (abstract_prefix o rec op ch data) (abstract_prefix o rec' op (map move ch) (sg data)).
  Proof.
    intros op ch data H. unfold abstract_prefix. destruct ch as [|x [|y [|? ?]]]; try reflexivity. cbn [map]. split_ch. destruct (op =? _); [eapply lk_bind; [apply m_negate|]; intros z Ez; eapply m_negated; eauto|].
    destruct (op =? _); [apply m_prefix_plus; auto|]. destruct (op =? _); [unfold abstractNot2; lks|]. destruct (op =? _); [rewrite m_leaf; destruct (leaf_of _ _); lks|]. destruct (op =? _); [|lks].
    destruct y as [u|[l|h] m p cs|e cs|k p cs|k2 cs src|z w src]; try reflexivity. cbn [move]. rewrite g_kind, g_src, m_text. destruct (_ =? _); [|reflexivity]. apply lk_same. intros s _. reflexivity.
  Qed.
  Lemma m_postfix : forall op ch data, Forall P ch -> lk move_ast (abstract_postfix rec op ch data) (abstract_postfix rec' op (map move ch) (sg data)).
  Proof.
    intros op ch data H. unfold abstract_postfix. destruct ch as [|x [|y [|? ?]]]; try reflexivity. cbn [map]. split_ch. destruct (op =? _); [lks|]. destruct (op =? _); [|lks]. cbv zeta.
    destruct y as [u|[l|h] m p cs|e cs|k p cs|k2 cs src|z w src]; try reflexivity. cbn [move]. rewrite g_kind, m_text. destruct (_ =? _); [eapply lk_bind; [apply m_derivative; auto|]; intros [z a] _; reflexivity|]. destruct (_ =? _); [|reflexivity].
    apply lk_same. intros s _. lks.
  Qed.
  Lemma m_divide : forall a b data, P a -> P b -> lk move_ast (abstractTimes_BinaryNode_Divide o rec a b data) (abstractTimes_BinaryNode_Divide o rec' (move a) (move b) (sg data)).
  Proof.
    intros a b data Ha Hb. unfold abstractTimes_BinaryNode_Divide. eapply lk_bind; [apply m_flatten|]. intros fl Ef. pose proof (flatten_safe _ _ _ Ha Ef) as S.
    eapply lk_bind; [apply lk_mapr; intros x Hx; apply m_operand; [apply Hrec|rewrite Forall_forall in S; auto]|]. intros args _. eapply lk_bind; [apply m_reciprocate; auto|]. intros r _. apply lk_Ok. rewrite m_call_src, map_app. reflexivity.
  Qed.
  Lemma m_binary : forall op ch data, Forall P ch -> lk move_ast (abstract_binary o rec op ch data) (abstract_binary o rec' op (map move ch) (sg data)).
  Proof.
    intros op ch data H. unfold abstract_binary. destruct ch as [|x [|y [|z [|? ?]]]]; try reflexivity. cbn [map]. split_ch. destruct (op =? _); [apply m_divide; auto|]. destruct (op =? _); [lks|].
    destruct (op =? _); [eapply lk_bind; [apply Hrec; auto|]; intros a _; eapply lk_bind; [apply Hrec; auto|]; intros b _; destruct (q_old_at_at_at o); reflexivity|]. destruct (op =? _); [lks|]. destruct (zin _ _).
    - destruct z as [u|[l|h] m p cs|e cs|k p cs|k2 cs src|z w src]; try reflexivity. cbn [move]. rewrite g_kind, g_src, m_text. destruct (_ =? _); [|reflexivity]. apply lk_same. intros s _. lks.
    - destruct (op =? _); [rewrite !m_leaf; destruct (_ && _); lks|]. eapply lk_bind; [apply Hrec; auto|]. intros a _. eapply lk_bind; [apply Hrec; auto|]. intros b _.
      assert (E : match move x with Op KBinary op2 _ => op2 =? BOP_PatternTest | _ => false end = match x with Op KBinary op2 _ => op2 =? BOP_PatternTest | _ => false end) by (destruct x as [u|[l|h] m p cs|e cs|k p cs|k2 cs src|v w src]; reflexivity).
      rewrite E. destruct (_ && _); reflexivity.
  Qed.
  Lemma m_infix : forall op ch data, P (Op KInfix op ch) -> lk move_ast (abstract_infix o rec op ch data) (abstract_infix o rec' op (map move ch) (sg data)).
  Proof.
    intros op ch data H. pose proof (kids _ _ _ H) as Hc. unfold abstract_infix. destruct (op =? _); [apply m_inequalities; auto|]. destruct (Z.eqb_spec op IOP_Plus) as [->|_]; [apply m_plus; auto|].
    destruct (op =? _); [eapply lk_bind; [apply m_span|]; intros cs E; apply span_even in E; subst; apply m_times, P_evens; auto|].
    assert (Q : forall s cs, cs = evens ch -> forall l, mapr (fun n => processInfixBinaryAtQuirk o n s) cs = Ok l -> Forall P l) by (intros s cs -> l E; eapply quirk_all; eauto; apply P_evens; auto).
    destruct (op =? _).
    { eapply lk_bind; [apply m_span|]. intros cs E. apply span_even in E. eapply lk_bind; [apply lk_mapr; intros a _; apply m_quirk|]. intros l El. rewrite <- map_rev. eapply lk_bind; [apply m_rec; apply Forall_rev; eapply Q; eauto|]. intros args _. reflexivity. }
    destruct (op =? _).
    { eapply lk_bind; [apply m_span|]. intros cs E. apply span_even in E. subst. eapply lk_bind; [|intros args _; apply lk_Ok; reflexivity]. apply lk_mapr. intros n Hn. assert (Pn : P n) by (eapply in_P; [exact Hc|]; apply evens_in; exact Hn). pose proof (Hrec n Pn) as K.
      destruct n as [u|[l|h] m p cs|e cs|k p cs|k2 cs src|v w src]; try exact K. cbn [move] in *. rewrite g_kind, g_src. destruct (_ =? _); [reflexivity|exact K]. }
    destruct (op =? _); [eapply lk_bind; [apply m_span|]; intros cs E; apply span_even in E; subst; apply m_message, P_evens; auto|].
    destruct (op =? _); [eapply lk_bind; [apply m_span|]; intros cs E; apply span_even in E; subst; apply (m_tilde _ (from_src data)), P_evens; auto|].
    rewrite map_length. destruct (Nat.even (length ch)); [reflexivity|]. eapply lk_bind; [apply m_span|]. intros cs E. apply span_even in E. eapply (lk_bind _ _ _ _ (map move)).
    - destruct (zin op _); [reflexivity|]. apply lk_mapr. intros a _. apply m_quirk.
    - intros l El. eapply lk_bind; [apply m_rec|intros args _; reflexivity]. destruct (zin op _); [injection El as <-; subst; apply P_evens; auto|]. eapply Q; eauto.
  Qed.
  Lemma m_children : forall a, lk (fun p => (map move_ast (fst p), move_source (snd p))) (into_children_and_source a) (into_children_and_source (move_ast a)).
  Proof. intros a. destruct a; reflexivity. Qed.
  Lemma m_ternary : forall op ch data, Forall P ch -> lk move_ast (abstract_ternary rec op ch data) (abstract_ternary rec' op (map move ch) (sg data)).
  Proof.
    intros op ch data H. unfold abstract_ternary. destruct ch as [|x [|y [|z [|v [|w [|? ?]]]]]]; try reflexivity. cbn [map]. split_ch. destruct (op =? _).
    - eapply lk_bind; [apply Hrec; auto|]. intros m _. eapply lk_bind; [apply Hrec; auto|]. intros a _. eapply lk_bind; [apply Hrec; auto|]. intros b _.
      assert (E : match move z with Op KInfix iop _ => iop =? IOP_CodeParser_Comma | _ => false end = match z with Op KInfix iop _ => iop =? IOP_CodeParser_Comma | _ => false end) by (destruct z as [u|[l|h] mm p cs|e cs|k p cs|k2 cs src|v0 w0 src]; reflexivity).
      rewrite E. destruct (match z with Op KInfix iop _ => _ | _ => _ end); [|reflexivity]. eapply lk_bind; [apply m_children|]. intros [cs src] _. reflexivity.
    - destruct (op =? _); [rewrite !m_leaf; destruct (_ && _); lks|]. eapply lk_bind; [apply Hrec; auto|]. intros a _. eapply lk_bind; [apply Hrec; auto|]. intros b _. eapply lk_bind; [apply Hrec; auto|]. intros c _. destruct (op =? _); reflexivity.
  Qed.
  Lemma m_prefix_binary : forall op ch data, Forall P ch -> lk move_ast (abstract_prefix_binary rec op ch data) (abstract_prefix_binary rec' op (map move ch) (sg data)).
  Proof.
    intros op ch data H. unfold abstract_prefix_binary. destruct ch as [|x [|y [|z [|? ?]]]]; try reflexivity. cbn [map]. split_ch.
    assert (K : lk move_ast (rbind (rec y) (fun a => rbind (rec z) (fun b => Ok (call (op_symbol KPrefixBinary op) [a; b] (from_src data))))) (rbind (rec' (move y)) (fun a => rbind (rec' (move z)) (fun b => Ok (call (op_symbol KPrefixBinary op) [a; b] (from_src (sg data))))))) by lks.
    destruct z as [u|[l|h] mm p cs|e cs|k p cs|k2 cs src|v0 w0 src]; try exact K. destruct k; try exact K. cbn [move] in *. destruct (zin _ _); [|exact K]. match goal with X : P (Op KPrefix p cs) |- _ => apply kids in X; rename X into Hcs end.
    destruct cs as [|a [|b [|? ?]]]; try reflexivity. cbn [map]. split_ch. lks.
  Qed.
  Lemma m_group : forall op ch data, Forall P ch -> lk move_ast (abstract_group o rec op ch data) (abstract_group o rec' op (map move ch) (sg data)).
  Proof.
    intros op ch data H. unfold abstract_group. destruct (op =? _); [apply m_paren_node; auto|]. destruct (op =? _); [apply m_naked; auto|]. destruct (op =? _); [apply m_naked; auto|]. destruct (op =? _); [apply m_naked; auto|].
    eapply lk_bind; [apply m_group_args; auto|]. intros l _. reflexivity.
  Qed.
  Lemma m_node : forall n data, P n -> lk move_ast (abstract_node o rec n data) (abstract_node o rec' (move n) (sg data)).
  Proof.
    intros n data H. pose proof (P_children P closed _ H) as Hc. destruct n as [t|h m op ch|e ch|k op ch|b ch src|a b src].
    - apply m_replace.
    - pose proof (m_call_node h m op ch data H) as K. destruct h; exact K.
    - cbn [move abstract_node children] in *. destruct ch as [|x [|y [|z [|? ?]]]]; try reflexivity. cbn [map]. split_ch. lks.
    - cbn [children] in Hc. destruct k; cbn [move abstract_node]; [apply m_prefix|apply m_infix|apply m_postfix|apply m_binary|apply m_ternary|apply m_prefix_binary|apply m_compound|apply m_group| |]; auto.
      + eapply lk_bind; [apply m_missing; auto|]. intros l _. reflexivity.
      + eapply lk_bind; [apply m_missing_opener; auto|]. intros l _. reflexivity.
    - cbn [move abstract_node children] in *. apply m_box. exact Hc.
    - reflexivity.
  Qed.
End move.
