(** Abstraction keeps the names, strings and numbers. *)
From Coq Require Import String.
From Coq Require Import ZArith List Bool Lia Permutation.
From Verif Require Import Base Source WLChar LongNames SpecText Iter GenTokenKind TokenKind Tokenizer GenPrec GenOps GenParselets Parselets Cst SpecCst CstProofs Parser SpecParser SpecParse TokenizerProofs ParserTheorems
  Ast Abstract SpecAbstract SpecItems AbstractProofs AbstractShape AbstractTotal AbstractTheorems.
Import ListNotations.
Local Open Scope list_scope.
Local Open Scope Z_scope.

(** ** Weights *)
Section keep.
  Variable w : item -> nat.
  Definition wt (l : list item) : nat := fold_right (fun i n => (w i + n)%nat) 0%nat l.
  Lemma wt_app : forall a b, wt (a ++ b) = (wt a + wt b)%nat.
  Proof. intros a b. induction a as [|x a IH]; [reflexivity|]. unfold wt in *. cbn. lia. Qed.
  Definition wa (a : ast) : nat := wt (ast_items a).
  Definition wl (l : list ast) : nat := fold_right (fun a n => (wa a + n)%nat) 0%nat l.
  Definition wc (n : cst) : nat := wt (flat_map token_items (toks n)).
  Definition wcl (l : list cst) : nat := fold_right (fun a n => (wc a + n)%nat) 0%nat l.
  Lemma wl_eq : forall l, wt (flat_map ast_items l) = wl l.
  Proof. intros l. induction l as [|a l IH]; [reflexivity|]. cbn [flat_map wl fold_right]. rewrite wt_app. fold (wl l). unfold wa. lia. Qed.
  Lemma wcl_eq : forall l, wt (flat_map token_items (flat_map toks l)) = wcl l.
  Proof. intros l. induction l as [|a l IH]; [reflexivity|]. cbn [flat_map wcl fold_right]. rewrite flat_map_app, wt_app. fold (wcl l). unfold wc. lia. Qed.
  Lemma wl_app : forall a b, wl (a ++ b) = (wl a + wl b)%nat.
  Proof. intros a b. induction a as [|x a IH]; [reflexivity|]. unfold wl, wcl in *. cbn. lia. Qed.
  Lemma wcl_app : forall a b, wcl (a ++ b) = (wcl a + wcl b)%nat.
  Proof. intros a b. induction a as [|x a IH]; [reflexivity|]. unfold wl, wcl in *. cbn. lia. Qed.
  Lemma wcl_rev : forall l, wcl (rev l) = wcl l.
  Proof. intros l. induction l as [|a l IH]; [reflexivity|]. cbn [rev]. rewrite wcl_app, IH. unfold wcl. cbn. lia. Qed.
  Lemma wc_op : forall k op ch, wc (Op k op ch) = wcl ch.
  Proof. intros. unfold wc. rewrite toks_eq by discriminate. apply wcl_eq. Qed.
  Lemma wc_err : forall e ch, wc (SynErr e ch) = wcl ch.
  Proof. intros. unfold wc. rewrite toks_eq by discriminate. apply wcl_eq. Qed.
  Lemma wc_call : forall h m op ch, wc (Call (Aggregate h) m op ch) = (wc h + wcl ch)%nat.
  Proof. intros. unfold wc. rewrite toks_eq by discriminate. rewrite children_call. rewrite flat_map_app, flat_map_app, wt_app, !wcl_eq. cbn. unfold wc. lia. Qed.
  Lemma wc_tok : forall t, wc (Tok t) = wt (token_items t).
  Proof. intros. unfold wc. cbn. rewrite app_nil_r. reflexivity. Qed.
  Definition silent (t : token) : Prop := token_items t = [].
  Lemma wc_silent : forall t, silent t -> wc (Tok t) = 0%nat.
  Proof. intros t H. rewrite wc_tok, H. reflexivity. Qed.

  Lemma wa_acall : forall h l d, wa (ACall h l d) = (wa h + wl l)%nat.
  Proof. intros. unfold wa. cbn [ast_items]. rewrite wt_app, wl_eq. reflexivity. Qed.
  Lemma wa_missing : forall h l d, wa (ACallMissingCloser h l d) = (wa h + wl l)%nat.
  Proof. intros. unfold wa. cbn [ast_items]. rewrite wt_app, wl_eq. reflexivity. Qed.
  Lemma wa_syntax : forall e l d, wa (ASyntaxError e l d) = wl l.
  Proof. intros. apply wl_eq. Qed.
  Lemma wa_abstract : forall e l d, wa (AAbstractSyntaxError e l d) = wl l.
  Proof. intros. apply wl_eq. Qed.
  Lemma wa_group : forall k l d, wa (AGroupMissingCloser k l d) = wl l.
  Proof. intros. apply wl_eq. Qed.
  Lemma wa_call : forall s l d, wa (call s l d) = wl l.
  Proof. intros. unfold call. rewrite wa_acall. reflexivity. Qed.
  Lemma wa_bang : forall a b d, wa (APrefixLinearSyntaxBang a b d) = (wa a + wa b)%nat.
  Proof. intros. unfold wa. cbn [ast_items]. apply wt_app. Qed.
  Lemma wa_unknown : forall k s, wa (ALeaf k s no_meta) = 0%nat.  Proof. reflexivity. Qed.

  (** a head for commas is not one that was written *)
  Definition is_comma (k : Z) (s : list Z) : bool := (k =? TK_Symbol) && zlist_eqb s (bytes_of_string "CodeParser`Comma").
  Definition nc (a : ast) : Prop :=
    match a with ALeaf k s d => is_comma k s = true -> m_src d = Unknown | ACall (ALeaf k s d) _ _ => is_comma k s = true -> m_src d = Unknown | _ => True end.
  Lemma nc_call : forall s l d, nc (call s l d).  Proof. intros s l d _. reflexivity. Qed.
  Lemma nc_acall : forall a l d, nc a -> nc (ACall a l d).  Proof. intros a l d H. destruct a; try exact I. exact H. Qed.
  Lemma wl_select : forall a, nc a -> wl (selectChildren a) = wa a.
  Proof.
    intros a H. assert (D : wl [a] = wa a) by (cbn; lia). destruct a as [| |h l d| | | | | | | | | |]; try exact D. destruct h as [k s d0| | | | | | | | | | | |]; try exact D. cbn [selectChildren]. cbn in H. unfold is_comma in H.
    destruct (_ && _); [|exact D]. rewrite wa_acall. unfold wa at 1. cbn [ast_items]. unfold leaf_items. rewrite H by reflexivity. reflexivity.
  Qed.
  Lemma wl_selects : forall l, Forall nc l -> wl (flat_map selectChildren l) = wl l.
  Proof. intros l H. induction H as [|a l Ha H IH]; [reflexivity|]. cbn [flat_map]. rewrite wl_app, IH, wl_select by exact Ha. reflexivity. Qed.

  Variable o : aopts.
  Definition P (n : cst) : Prop := good n /\ Forall (fun t => ~ comma_name t) (toks n) /\ Forall (fun m => ~ absorbed o m /\ ~ hidden m) (nodes n).
  Lemma closed : forall m k, P m -> In k (nodes m) -> P k.
  Proof.
    intros m k (G & F & A) H. split; [eapply good_down; eauto|]. split; [eapply leaf_down; eauto|]. rewrite Forall_forall in *. intros x Hx. apply A. eapply nodes_trans; eauto.
  Qed.
  Variable rec : cst -> res ast.
  Definition kp (r : res ast) (n : nat) : Prop := forall a, r = Ok a -> wa a = n /\ nc a.
  Hypothesis Hrec : forall m, P m -> kp (rec m) (wc m).
  Hypothesis Hcomma : forall ch a, rec (Op KInfix IOP_CodeParser_Comma ch) = Ok a -> exists args d, a = call "CodeParser`Comma" args d.

  Lemma kids : forall k op ch, P (Op k op ch) -> Forall P ch.  Proof. exact (P_op P closed). Qed.
  Lemma in_P : forall (l : list cst) c, In c l -> Forall P l -> P c.  Proof. intros l c Hin H. rewrite Forall_forall in H. auto. Qed.
  Ltac split_ch := repeat match goal with H : Forall P (_ :: _) |- _ => apply Forall_cons_iff in H as [? H] end.
  Ltac opn H := repeat match type of H with
    | rbind _ _ = Ok _ => let x := fresh "x" in let E := fresh "E" in apply rbind_Ok in H as (x & E & H)
    end.
  Ltac wsum := rewrite ?wa_call, ?wa_acall, ?wa_abstract, ?wa_syntax, ?wa_missing, ?wa_group, ?wa_bang, ?wl_app, ?wcl_app; unfold wl, wcl; cbn [fold_right app]; fold wl wcl; rewrite ?wa_call, ?wa_acall, ?wa_abstract; unfold wl, wcl; cbn [fold_right]; fold wl wcl.

  Lemma leaf_of_P : forall t, P (Tok t) -> good_leaf t.
  Proof. intros t ((_ & F & _) & _). inversion F as [|? ? [U _] _]; subst. exact U. Qed.
  Lemma fits_P : forall n, P n -> fits n.
  Proof. intros n ((F & _) & _). rewrite nodes_subnodes in F. inversion F. assumption. Qed.

  (** ** Silent tokens *)
  Definition silentb (k : Z) : bool :=
    negb ((k =? TK_Symbol) || (k =? TK_String) || zin k NUMBERS || (k =? TK_Fake_ImplicitOne) || (k =? TK_Fake_ImplicitAll) || zin k [TK_Fake_ImplicitNull; TK_Error_PrefixImplicitNull; TK_Error_InfixImplicitNull]).
  Lemma silentb_silent : forall t, silentb (t_kind t) = true -> silent t.
  Proof.
    intros t H. unfold silentb in H. rewrite !negb_orb in H. repeat (apply andb_true_iff in H as [H ?]). unfold silent, token_items. cbv zeta.
    repeat match goal with K : negb _ = true |- _ => apply negb_true_iff in K; rewrite K; clear K end. reflexivity.
  Qed.
  Lemma silent_prefix : forall t op prec, P (Tok t) -> prefix_entry (prefix_of (t_kind t)) op prec -> silent t.
  Proof.
    intros t op prec H E. apply silentb_silent. assert (K : kinds (fun k => match prefix_of k with PP_PrefixOperator _ _ | PP_Integral _ _ | PP_LessLess => silentb k | _ => true end)) by (vm_compute; reflexivity).
    apply kinds_in with (t := t) in K; [|apply leaf_of_P, H]. destruct (prefix_of (t_kind t)); cbn in E; try contradiction; exact K.
  Qed.
  Lemma silent_integral : forall t op op2, P (Tok t) -> prefix_of (t_kind t) = PP_Integral op op2 -> silent t.
  Proof. intros t op op2 H E. eapply silent_prefix; [exact H|]. rewrite E. split; reflexivity. Qed.
  Lemma silent_opener : forall t op, P (Tok t) -> opens op t -> silent t.
  Proof.
    intros t op H (op2 & E). apply silentb_silent. assert (K : kinds (fun k => match prefix_of k with PP_Group _ _ => silentb k | _ => true end)) by (vm_compute; reflexivity).
    apply kinds_in with (t := t) in K; [|apply leaf_of_P, H]. rewrite E in K. exact K.
  Qed.
  Lemma silent_infix : forall t, P (Tok t) -> (match infix_of (t_kind t) with IP_InfixOperator _ _ | IP_Times | IP_Comma | IP_Semi | IP_ColonColon | IP_BinaryOperator _ _ | IP_Equal | IP_ColonEqual | IP_Colon | IP_SemiSemi
      | IP_GreaterGreater | IP_GreaterGreaterGreater | IP_PostfixOperator _ _ => True | _ => False end) -> silent t.
  Proof.
    intros t H E. apply silentb_silent. assert (K : kinds (fun k => match infix_of k with IP_InfixOperator _ _ | IP_Times | IP_Comma | IP_Semi | IP_ColonColon | IP_BinaryOperator _ _ | IP_Equal | IP_ColonEqual | IP_Colon | IP_SemiSemi
      | IP_GreaterGreater | IP_GreaterGreaterGreater | IP_PostfixOperator _ _ => silentb k | _ => true end)) by (vm_compute; reflexivity).
    apply kinds_in with (t := t) in K; [|apply leaf_of_P, H]. destruct (infix_of (t_kind t)); try contradiction; exact K.
  Qed.
  Lemma silent_sep : forall t op prec, P (Tok t) -> infix_entry (infix_of (t_kind t)) op prec -> silent t.
  Proof. intros t op prec H E. apply silent_infix; auto. destruct (infix_of (t_kind t)); cbn in E; try contradiction; exact I. Qed.
  Lemma silent_binary : forall t op prec, P (Tok t) -> binary_entry (infix_of (t_kind t)) op prec -> silent t.
  Proof. intros t op prec H E. apply silent_infix; auto. destruct (infix_of (t_kind t)); cbn in E; try contradiction; exact I. Qed.
  Lemma silent_closer : forall t u, closes t u -> silent u.
  Proof.
    intros t u H. apply closes_matching in H. apply silentb_silent. unfold matching, BRACKETS in H. cbn [In] in H. repeat (destruct H as [H|H]; [injection H as _ <-; reflexivity|]). contradiction.
  Qed.

  (** ** Lists *)
  Lemma k_list : forall l r, Forall P l -> mapr rec l = Ok r -> wl r = wcl l /\ Forall nc r.
  Proof.
    intros l r H E. apply mapr_Ok in E. induction E as [|a b l r E F IH]; [split; [reflexivity|constructor]|]. split_ch. destruct (IH H) as [I1 I2]. destruct (Hrec a H0 b E) as [J1 J2]. split; [|constructor; auto]. unfold wl, wcl in *. cbn. lia.
  Qed.
  Lemma quirk_same : forall op n m, P n -> processInfixBinaryAtQuirk o n (symbol_name (op_symbol KInfix op)) = Ok m -> m = n.
  Proof.
    intros op n m (_ & _ & A) E. unfold processInfixBinaryAtQuirk in E. assert (D : Ok n = Ok m -> m = n) by (intros [= <-]; reflexivity). destruct (q_infix_binary_at o) eqn:Q; cbn [negb] in E; [|exact (D E)].
    destruct n as [t|h b op2 body|e ch|k op2 ch|b ch src|x y src]; try exact (D E). destruct k; try exact (D E). destruct (Z.eqb_spec op2 BOP_CodeParser_BinaryAt) as [->|_]; [|exact (D E)].
    destruct ch as [|x [|y [|z [|? ?]]]]; try discriminate E. apply rbind_Ok in E as (is & Ei & E). destruct is; [|exact (D E)]. exfalso. rewrite nodes_subnodes in A. apply Forall_cons_iff in A as [[A _] _]. apply A. split; [exact Q|].
    destruct x as [t| | | | |]; try discriminate Ei. destruct (Z.eqb_spec (t_kind t) TK_Symbol) as [Ek|_]; [|discriminate Ei]. apply rbind_Ok in Ei as (s & Es & Ei). unfold as_str in Es. destruct (utf8_valid _); [|discriminate Es]. injection Es as <-. injection Ei as Ei.
    apply zlist_eqb_eq in Ei. exists t, y, z, op. auto.
  Qed.
  Lemma quirks_same : forall op l m, Forall P l -> mapr (fun n => processInfixBinaryAtQuirk o n (symbol_name (op_symbol KInfix op))) l = Ok m -> m = l.
  Proof. intros op l m H E. apply mapr_Ok in E. induction E as [|a b l m E F IH]; [reflexivity|]. split_ch. rewrite (quirk_same _ _ _ H0 E), IH; auto. Qed.

  (** ** Operands *)
  Definition nw (g : negated) : nat := match g with InfixTimesSeq l => wcl (evens l) | _ => w Number end.
  Definition ow (x : oper) : nat := match x with OCst n | OReciprocate n _ => wc n | ONegativeOne => 0%nat | ONegated g _ => nw g end.
  Definition ows (l : list oper) : nat := fold_right (fun x n => (ow x + n)%nat) 0%nat l.
  Lemma ows_app : forall a b, ows (a ++ b) = (ows a + ows b)%nat.
  Proof. intros a b. induction a as [|x a IH]; [reflexivity|]. unfold ows in *. cbn. lia. Qed.
  Lemma joined_weight : forall op ch, joined op ch -> Forall P ch -> wcl ch = wcl (evens ch).
  Proof.
    intros op ch J. induction J as [a t b prec E|a t l prec E J IH]; intros H; split_ch; unfold wcl; cbn [fold_right evens]; fold wcl; rewrite (wc_silent t) by (eapply silent_sep; eauto).
    - lia.
    - unfold wcl in IH. rewrite IH by exact H. lia.
  Qed.
  Lemma infix_weight : forall op ch, P (Op KInfix op ch) -> wc (Op KInfix op ch) = wcl (evens ch).
  Proof. intros op ch H. rewrite wc_op. pose proof (fits_P _ H) as F. inversion F; subst. eapply joined_weight; [eassumption|eapply kids; exact H]. Qed.
  Lemma number_token : forall t, t_kind t = TK_Integer \/ t_kind t = TK_Real -> wc (Tok t) = w Number.
  Proof. intros t H. rewrite wc_tok. unfold token_items. cbv zeta. destruct H as [-> | ->]; cbn; lia. Qed.
  Lemma group_ends : forall op ch, fits (Op KGroup op ch) -> exists t mid u, ch = Tok t :: mid ++ [Tok u] /\ opens op t /\ closes t u.
  Proof. intros op ch F. inversion F; subst. eauto 8. Qed.
  Lemma paren_weight : forall x c y, P (Op KGroup GOP_CodeParser_GroupParen [x; c; y]) -> wc (Op KGroup GOP_CodeParser_GroupParen [x; c; y]) = wc c.
  Proof.
    intros x c y H. rewrite wc_op. pose proof (fits_P _ H) as F. pose proof (kids _ _ _ H) as Hc. destruct (group_ends _ _ F) as (t & mid & u & E & Ho & Hcl). injection E as -> E. destruct mid as [|c' [|c2 mid]]; [discriminate E| |destruct mid; discriminate E]. injection E as -> ->. split_ch. unfold wcl. cbn [fold_right]. rewrite (wc_silent t), (wc_silent u); [lia| |]; [eapply silent_closer; eauto|eapply silent_opener; eauto].
  Qed.
  Lemma prefix_weight : forall op x c, P (Op KPrefix op [x; c]) -> wc (Op KPrefix op [x; c]) = wc c.
  Proof.
    intros op x c H. rewrite wc_op. pose proof (fits_P _ H) as F. pose proof (kids _ _ _ H) as Hc. inversion F; subst. split_ch. unfold wcl. cbn [fold_right]. rewrite (wc_silent t); [lia|]. eapply silent_prefix; eauto.
  Qed.
  Lemma zero_zeroish : forall n, possiblyNegatedZeroQ n = Ok true -> zeroish n = true.
  Proof.
    apply (cst_ind' (fun n => possiblyNegatedZeroQ n = Ok true -> zeroish n = true)). intros n IH E. rewrite Forall_forall in IH. destruct n as [t|h b op body|e ch|k op ch|b ch src|x y src]; try discriminate E.
    - cbn in E. destruct (t_kind t =? TK_Integer); [|discriminate E]. unfold as_str in E. destruct (utf8_valid _); [|discriminate E]. injection E as E. exact E.
    - destruct k; try discriminate E; cbn [possiblyNegatedZeroQ] in E.
      + destruct (_ =? _); [|discriminate E]. destruct ch as [|x [|c [|? ?]]]; try discriminate E. change (zeroish c = true). apply IH; auto. right. left. reflexivity.
      + destruct (_ =? _); [|discriminate E]. destruct ch as [|x [|c [|y [|? ?]]]]; try discriminate E. change (zeroish c = true). apply IH; auto. right. left. reflexivity.
  Qed.
  Lemma k_negate : forall n g, P n -> negate n = Ok g -> nw g = wc n.
  Proof.
    apply (cst_ind' (fun n => forall g, P n -> negate n = Ok g -> nw g = wc n)). intros n IH g H E. rewrite Forall_forall in IH.
    assert (D : Ok (InfixTimesSeq [n]) = Ok g -> nw g = wc n) by (intros [= <-]; cbn; lia).
    destruct n as [t|h b op body|e ch|k op ch|b ch src|x y src]; try exact (D E).
    - cbn [negate] in E. destruct (Z.eqb_spec (t_kind t) TK_Integer) as [K|_].
      + apply rbind_Ok in E as (s & _ & E). injection E as <-. rewrite number_token by auto. destruct (zlist_eqb s [48]); reflexivity.
      + destruct (Z.eqb_spec (t_kind t) TK_Real) as [K|_]; [|exact (D E)]. injection E as <-. rewrite number_token by auto. reflexivity.
    - pose proof (kids _ _ _ H) as Hc. destruct k; try exact (D E); cbn [negate] in E.
      + destruct (Z.eqb_spec op PREOP_Minus) as [->|_]; [|exact (D E)]. pose proof (fits_P _ H) as F. inversion F; subst. split_ch. apply rbind_Ok in E as (z & _ & E). destruct z; [|exact (D E)]. rewrite prefix_weight by exact H. apply IH; auto. right. left. reflexivity.
      + destruct (Z.eqb_spec op IOP_Times) as [->|_]; [|exact (D E)]. injection E as <-. rewrite infix_weight by exact H. reflexivity.
      + destruct (Z.eqb_spec op GOP_CodeParser_GroupParen) as [->|_]; [|exact (D E)]. destruct ch as [|x [|c r]]; try discriminate E. apply rbind_Ok in E as (z & Ez & E). split_ch. destruct z.
        * destruct r as [|y [|? ?]].
          -- pose proof (fits_P _ H) as F. destruct (group_ends _ _ F) as (t & mid & u & Et & Ho & Hcl). injection Et as -> Et. destruct mid as [|? mid]; [|destruct mid; discriminate Et]. injection Et as ->.
             exfalso. cbn [possiblyNegatedZeroQ] in Ez. pose proof (silent_closer _ _ Hcl) as Sc. destruct (Z.eqb_spec (t_kind u) TK_Integer) as [K|_]; [|discriminate Ez]. unfold silent, token_items in Sc. rewrite K in Sc. discriminate Sc.
          -- rewrite paren_weight by exact H. apply IH; auto. right. left. reflexivity.
          -- exfalso. destruct H as (_ & _ & A). rewrite nodes_subnodes in A. apply Forall_cons_iff in A as [[_ A] _]. apply A. do 5 eexists. split; [reflexivity|]. apply zero_zeroish. exact Ez.
        * apply rbind_Ok in E as (q & _ & E). destruct q; [|exact (D E)]. destruct r as [|y [|? ?]]; try discriminate E. rewrite paren_weight by exact H. apply IH; auto. right. left. reflexivity.
  Qed.

  Lemma binary_weight : forall op x t y, P (Op KBinary op [x; t; y]) -> wc (Op KBinary op [x; t; y]) = (wc x + wc y)%nat.
  Proof.
    intros op x t y H. rewrite wc_op. pose proof (fits_P _ H) as F. pose proof (kids _ _ _ H) as Hc. inversion F; subst; split_ch; unfold wcl; cbn [fold_right].
    - rewrite (wc_silent t0); [lia|]. eapply silent_binary; eauto.
    - rewrite (wc_silent t0); [lia|]. apply silentb_silent. match goal with K : t_kind t0 = TK_Equal |- _ => rewrite K end. reflexivity.
  Qed.
  Definition safe (x : oper) : Prop := match x with OCst m | OReciprocate m _ => P m | ONegativeOne => True | ONegated g _ => number g end.
  Lemma k_flatten : forall data n l, P n -> flatten_times_cst o n data = Ok l -> ows l = wc n.
  Proof.
    intros data. apply (cst_ind' (fun n => forall l, P n -> flatten_times_cst o n data = Ok l -> ows l = wc n)). intros n IH l H E. rewrite Forall_forall in IH.
    assert (D : Ok [OCst n] = Ok l -> ows l = wc n) by (intros [= <-]; cbn; lia).
    destruct n as [t|h m op body|e ch|k op ch|b ch src|a b src]; try exact (D E). pose proof (kids _ _ _ H) as Hc. destruct k; try exact (D E); cbn [flatten_times_cst] in E.
    - destruct (op =? PREOP_Minus); [|exact (D E)]. destruct ch as [|t [|c [|? ?]]]; try discriminate E. split_ch. apply rbind_Ok in E as (q & _ & E). rewrite prefix_weight by exact H. destruct q.
      + apply rbind_Ok in E as (g & Eg & E). injection E as <-. pose proof (k_negate _ _ H1 Eg). cbn. lia.
      + destruct (q_flatten_times o); [|rewrite (D E); apply prefix_weight; exact H]. apply rbind_Ok in E as (r & Er & E). injection E as <-. pose proof (IH c (or_intror (or_introl eq_refl)) r H1 Er). unfold ows in *. cbn. lia.
    - destruct (op =? IOP_Times); [|exact (D E)]. destruct (a_dbg o && _); [discriminate E|]. rewrite flatten_infix in E. apply rbind_Ok in E as (ls & E & X). injection X as <-. apply mapr_Ok in E. rewrite infix_weight by exact H.
      assert (Hi : forall c, In c (evens ch) -> forall l, flatten_times_cst o c data = Ok l -> ows l = wc c).
      { intros c Hin r Er. apply evens_in in Hin. apply (IH c Hin r); [eapply in_P; eauto|exact Er]. }
      clear - E Hi. induction E as [|c b cs bs E F IHF]; [reflexivity|]. cbn [concat]. rewrite ows_app, IHF by (intros; eapply Hi; [right|]; eauto). rewrite (Hi c (or_introl eq_refl) b E). reflexivity.
    - destruct (op =? BOP_Divide); [|exact (D E)]. destruct (q_flatten_times o); [|exact (D E)]. destruct ch as [|x [|t [|y [|? ?]]]]; try discriminate E. split_ch. apply rbind_Ok in E as (r & Er & E). injection E as <-.
      rewrite binary_weight by exact H. rewrite ows_app. rewrite (IH x (or_introl eq_refl) r H0 Er). cbn. lia.
  Qed.
  Lemma flatten_safe : forall data n l, P n -> flatten_times_cst o n data = Ok l -> Forall safe l.
  Proof. intros data n l H E. eapply Forall_impl; [|eapply flatten_times_numbers; exact E]. intros x Hx. destruct x; cbn in *; auto; eapply closed; eauto. Qed.
  Lemma k_number : forall g data a, number g -> negated_number g data = Ok a -> wa a = nw g.
  Proof.
    intros g data a N E. destruct g as [|t|t|l]; [injection E as <-|cbn in E; apply rbind_Ok in E as (s & _ & E); injection E as <-|cbn in E; apply rbind_Ok in E as (s & _ & E); injection E as <-|contradiction]; apply Nat.add_0_r.
  Qed.
  Lemma k_operand : forall f x a, (forall n, P n -> kp (f n) (wc n)) -> safe x -> operand_into_ast rec f x = Ok a -> wa a = ow x.
  Proof.
    intros f x a Hf S E. destruct x as [n|n data| |g data]; cbn [operand_into_ast] in E.
    - apply (Hf n S a E).
    - unfold reciprocate_into_ast in E. apply rbind_Ok in E as (b & Eb & E). injection E as <-. destruct (Hrec n S b Eb) as [W _]. rewrite wa_call. unfold wl. cbn [fold_right]. rewrite W. cbn. lia.
    - injection E as <-. reflexivity.
    - eapply k_number; eauto.
  Qed.
  Lemma k_operands : forall f l args, (forall n, P n -> kp (f n) (wc n)) -> Forall safe l -> mapr (operand_into_ast rec f) l = Ok args -> wl args = ows l.
  Proof.
    intros f l args Hf S E. apply mapr_Ok in E. induction E as [|x a l args E F IH]; [reflexivity|]. apply Forall_cons_iff in S as [S1 S2]. specialize (IH S2). pose proof (k_operand f x a Hf S1 E). unfold wl, ows in *. cbn. lia.
  Qed.
  Lemma k_times_seq : forall l data a, Forall P l -> abstractTimes_InfixNode o rec l data = Ok a -> exists args, a = call "System`Times" args (from_src data) /\ wl args = wcl l.
  Proof.
    intros l data a H E. unfold abstractTimes_InfixNode in E. apply rbind_Ok in E as (fl & Ef & E). apply rbind_Ok in E as (args & Ea & E). injection E as <-. exists args. split; [reflexivity|].
    unfold flattenTimes in Ef. apply rbind_Ok in Ef as (ls & Ef & X). injection X as <-. apply mapr_Ok in Ef.
    assert (S : Forall safe (concat ls) /\ ows (concat ls) = wcl l).
    { clear - Ef H Hrec. induction Ef as [|c b cs bs E F IH]; [split; [constructor|reflexivity]|]. apply Forall_cons_iff in H as [H1 H2]. destruct (IH H2) as [I1 I2]. split; [apply Forall_app; split; [eapply flatten_safe; eauto|exact I1]|].
      cbn [concat]. rewrite ows_app, I2, (k_flatten _ _ _ H1 E). reflexivity. }
    destruct S as [S1 S2]. rewrite <- S2. eapply k_operands; [|exact S1|exact Ea]. intros n Hn b Eb. apply rbind_Ok in Eb as (m & Em & Eb). apply (quirk_same IOP_Times) in Em; [|exact Hn]. subst m. exact (Hrec n Hn b Eb).
  Qed.
  Lemma k_negated : forall g data, match g with InfixTimesSeq l => Forall P l | _ => True end -> kp (negated_into_ast o rec g data) (nw g).
  Proof.
    intros g data H a E. assert (N : number g -> negated_number g data = Ok a -> wa a = nw g /\ nc a).
    { intros N En. split; [eapply k_number; eauto|]. destruct g as [|t|t|l]; cbn in En; try contradiction; [injection En as <-|apply rbind_Ok in En as (s & _ & En); injection En as <-|apply rbind_Ok in En as (s & _ & En); injection En as <-]; intros X; discriminate X. }
    destruct g as [|t|t|l]; try (apply N; [exact I|exact E]). cbn [negated_into_ast] in E. apply rbind_Ok in E as (ch & Ec & E). apply span_even in Ec. subst ch. apply rbind_Ok in E as (b & Eb & E).
    apply k_times_seq in Eb; [|apply P_evens; exact H]. destruct Eb as (args & -> & W). cbn [call] in E. injection E as <-. split; [|intros _; reflexivity]. rewrite wa_acall. cbn [nw]. rewrite <- W. reflexivity.
  Qed.
  Lemma k_negated_of : forall n g data, P n -> negate n = Ok g -> kp (negated_into_ast o rec g data) (wc n).
  Proof. intros n g data H E. rewrite <- (k_negate _ _ H E). apply k_negated. destruct g; auto. eapply negate_seq; [exact closed|exact E|exact H]. Qed.
  Lemma k_flatten_plus : forall n m, P n -> flattenPrefixPlus n = Ok m -> wc m = wc n.
  Proof.
    apply (cst_ind' (fun n => forall m, P n -> flattenPrefixPlus n = Ok m -> wc m = wc n)). intros n IH m H E. rewrite Forall_forall in IH. assert (D : Ok n = Ok m -> wc m = wc n) by (intros [= <-]; reflexivity).
    destruct n as [t|h b op body|e ch|k op ch|b ch src|a b src]; try exact (D E). destruct k; try exact (D E). cbn [flattenPrefixPlus] in E. destruct (op =? _); [|exact (D E)]. destruct ch as [|t [|c [|? ?]]]; try discriminate E.
    pose proof (kids _ _ _ H) as Hc. split_ch. rewrite prefix_weight by exact H. apply (IH c); auto. right. left. reflexivity.
  Qed.
  Lemma k_prefix_plus : forall data n, P n -> kp (abstractPrefixPlus rec n data) (wc n).
  Proof.
    intros data. apply (cst_ind' (fun n => P n -> kp (abstractPrefixPlus rec n data) (wc n))). intros n IH H. rewrite Forall_forall in IH.
    assert (D : kp (rbind (rec n) (fun a => Ok (call "System`Plus" [a] (from_src data)))) (wc n)).
    { intros a E. apply rbind_Ok in E as (b & Eb & E). injection E as <-. destruct (Hrec n H b Eb) as [W _]. split; [|apply nc_call]. rewrite wa_call. unfold wl. cbn [fold_right]. lia. }
    destruct n as [t|h b op body|e ch|k op ch|b ch src|a b src]; try exact D. destruct k; try exact D. cbn [abstractPrefixPlus]. destruct (op =? _); [|exact D]. destruct ch as [|t [|c [|? ?]]]; try (intros a E; discriminate E).
    pose proof (kids _ _ _ H) as Hc. split_ch. rewrite prefix_weight by exact H. apply (IH c); auto. right. left. reflexivity.
  Qed.
  Lemma k_pair : forall t y x, P y -> processPlusPair t y = Ok x -> ow x = wc y /\ match x with OCst n => P n | ONegated g _ => match g with InfixTimesSeq l => Forall P l | _ => True end | _ => False end.
  Proof.
    intros t y x H E. unfold processPlusPair in E. destruct t as [t| | | | |]; try discriminate E. destruct (zin _ _); [injection E as <-; split; [reflexivity|exact H]|]. destruct (zin _ _); [|discriminate E].
    apply rbind_Ok in E as (s & _ & E). apply rbind_Ok in E as (s2 & _ & E). apply rbind_Ok in E as (g & Eg & E). injection E as <-. split; [exact (k_negate _ _ H Eg)|]. destruct g; auto. eapply negate_seq; [exact closed|exact Eg|exact H].
  Qed.
  Lemma k_plus : forall ch data, P (Op KInfix IOP_Plus ch) -> kp (abstractPlus o rec ch data) (wc (Op KInfix IOP_Plus ch)).
  Proof.
    intros ch data H a E. pose proof (kids _ _ _ H) as Hc. rewrite infix_weight by exact H. unfold abstractPlus in E. destruct ch as [|first r]; [discriminate E|]. apply rbind_Ok in E as (ps & Ep & E). apply rbind_Ok in E as (xs & Ex & E). apply rbind_Ok in E as (args & Ea & E).
    injection E as <-. split; [|apply nc_call]. rewrite wa_call. apply mapr_Ok in Ex. apply mapr_Ok in Ea.
    assert (W : forall n, P n -> forall b, rbind (processInfixBinaryAtQuirk o n (bytes_of_string "Plus")) (fun m => rbind (flattenPrefixPlus m) (fun m => rec m)) = Ok b -> wa b = wc n).
    { intros n Hn b Eb. apply rbind_Ok in Eb as (m & Em & Eb). apply (quirk_same IOP_Plus) in Em; [|exact Hn]. subst m. apply rbind_Ok in Eb as (m & Em & Eb). rewrite <- (k_flatten_plus _ _ Hn Em). apply Hrec; [|exact Eb]. eapply closed; [exact Hn|]. eapply flatten_plus_in; eauto. }
    inversion Ea as [|x0 a0 xs0 as0 E0 F0]; subst. split_ch. unfold wl. cbn [fold_right]. rewrite (W first H0 a0 E0).
    assert (V : evens (first :: r) = first :: map snd ps).
    { clear - Ep. revert ps Ep. destruct r as [|b r]; [intros ps [= <-]; reflexivity|]. revert b first. induction r as [|y|y z r IH] using pair_ind; intros b first ps E; cbn -[rbind] in E.
      - discriminate E.
      - injection E as <-. reflexivity.
      - apply rbind_Ok in E as (ps' & E & X). injection X as <-. cbn [evens map snd]. f_equal. apply (IH z y). exact E. }
    rewrite V. unfold wcl. cbn [fold_right]. f_equal. fold (wl as0). fold (wcl (map snd ps)).
    assert (Py : forall p, In p ps -> P (snd p)). { intros [x y] Hin. destruct (chunks_in _ _ _ _ _ Ep Hin) as [_ Hy]. cbn. eapply in_P; eauto. }
    clear - Ex F0 Py W Hrec. revert as0 F0. induction Ex as [|[x y] z ps xs E F IH]; intros as0 F0; inversion F0 as [|z0 a1 ? as1 E1 F1]; subst; [reflexivity|].
    destruct (k_pair _ _ _ (Py _ (or_introl eq_refl)) E) as [K1 K2]. cbn [map wl wcl fold_right snd] in *. fold (wl as1). fold (wcl (map snd ps)). rewrite (IH (fun p Hp => Py p (or_intror Hp)) as1 F1). f_equal.
    destruct z as [n| | |g dd]; try contradiction; [rewrite (W n K2 _ E1); exact K1|]. rewrite <- K1. exact (proj1 (k_negated g dd K2 _ E1)).
  Qed.
  Lemma k_derivative : forall n z a, P n -> derivativeOrderAndAbstractedBody rec n = Ok (z, a) -> wa a = wc n.
  Proof.
    apply (cst_ind' (fun n => forall z a, P n -> derivativeOrderAndAbstractedBody rec n = Ok (z, a) -> wa a = wc n)). intros n IH z a H E. rewrite Forall_forall in IH.
    assert (D : rbind (rec n) (fun a => Ok (0, a)) = Ok (z, a) -> wa a = wc n).
    { intros E'. apply rbind_Ok in E' as (b & Eb & E'). injection E' as <- <-. apply (Hrec n H b Eb). }
    destruct n as [t|h b op body|e ch|k op ch|b ch src|x y src]; try exact (D E). destruct k; try exact (D E). cbn [derivativeOrderAndAbstractedBody] in E. destruct (op =? _); [|exact (D E)]. destruct ch as [|c [|t [|? ?]]]; try discriminate E.
    apply rbind_Ok in E as ([z' b] & Eb & E). injection E as <- <-. pose proof (kids _ _ _ H) as Hc. pose proof (fits_P _ H) as F. inversion F; subst. split_ch. rewrite wc_op. unfold wcl. cbn [fold_right]. rewrite (wc_silent t0).
    - rewrite (IH c (or_introl eq_refl) _ _ H0 Eb). lia.
    - apply silent_infix; auto. match goal with K : infix_of _ = _ |- _ => rewrite K end. exact I.
  Qed.

  (** ** Tokens *)
  Lemma Ok_inj : forall A (x y : A), Ok x = Ok y -> x = y.  Proof. intros A x y [= E]. exact E. Qed.
  Lemma special_not_comma : forall s n, find_spelling s SPECIAL_SYMBOLS = Some n -> is_comma TK_Symbol (symbol_text n) = false.
  Proof.
    assert (K : forallb (fun p => negb (is_comma TK_Symbol (symbol_text (snd p)))) SPECIAL_SYMBOLS = true) by (vm_compute; reflexivity).
    intros s n. revert K. generalize SPECIAL_SYMBOLS. intros l. induction l as [|[x y] l IH]; intros K E; [discriminate E|]. cbn [forallb snd] in K. apply andb_true_iff in K as [K1 K2]. cbn [find_spelling] in E. destruct (zlist_eqb s x).
    - injection E as <-. apply negb_true_iff. exact K1.
    - apply IH; auto.
  Qed.
  Lemma nc_leaf : forall k s d, (k = TK_Symbol -> s <> bytes_of_string "CodeParser`Comma") -> nc (ALeaf k s d).
  Proof. intros k s d H C. exfalso. unfold is_comma in C. apply andb_true_iff in C as [C1 C2]. apply Z.eqb_eq in C1. apply zlist_eqb_eq in C2. exact (H C1 C2). Qed.
  Ltac quiet K := rewrite wc_tok; unfold token_items; rewrite K; reflexivity.
  Lemma k_token : forall t, P (Tok t) -> kp (abstract_replace_token t) (wc (Tok t)).
  Proof.
    intros t H a E. pose proof (leaf_of_P _ H) as G. unfold abstract_replace_token in E. cbv zeta in E.
    assert (NC : ~ comma_name t). { destruct H as (_ & F & _). inversion F; subst; assumption. }
    destruct (Z.eqb_spec (t_kind t) TK_PercentPercent) as [K|_]. { apply rbind_Ok in E as (s & _ & E). injection E as <-. split; [quiet K|apply nc_call]. }
    destruct (Z.eqb_spec (t_kind t) TK_Under) as [K|_]. { injection E as <-. split; [quiet K|apply nc_call]. }
    destruct (Z.eqb_spec (t_kind t) TK_UnderUnder) as [K|_]. { injection E as <-. split; [quiet K|apply nc_call]. }
    destruct (Z.eqb_spec (t_kind t) TK_UnderUnderUnder) as [K|_]. { injection E as <-. split; [quiet K|apply nc_call]. }
    destruct (Z.eqb_spec (t_kind t) TK_UnderDot) as [K|_]. { injection E as <-. split; [quiet K|apply nc_call]. }
    destruct (Z.eqb_spec (t_kind t) TK_Hash) as [K|_]. { injection E as <-. split; [quiet K|apply nc_call]. }
    destruct (Z.eqb_spec (t_kind t) TK_HashHash) as [K|_]. { injection E as <-. split; [quiet K|apply nc_call]. }
    destruct (Z.eqb_spec (t_kind t) TK_Percent) as [K|_]. { injection E as <-. split; [quiet K|apply nc_call]. }
    destruct (Z.eqb_spec (t_kind t) TK_Fake_ImplicitOne) as [K|N1]. { injection E as <-. split; [quiet K|]. intros X. discriminate X. }
    destruct (Z.eqb_spec (t_kind t) TK_Fake_ImplicitAll) as [K|N2]. { injection E as <-. split; [quiet K|]. intros X. discriminate X. }
    destruct (zin (t_kind t) [TK_Error_PrefixImplicitNull; TK_Error_InfixImplicitNull]) eqn:N3.
    { injection E as <-. split; [|intros X; discriminate X]. apply zin_In in N3. destruct N3 as [K|[K|[]]]; symmetry in K; quiet K. }
    destruct (isError (t_kind t)) eqn:IE.
    { injection E as <-. split; [|exact I]. assert (K : kinds (fun k => if isError k then if zin k [TK_Error_PrefixImplicitNull; TK_Error_InfixImplicitNull] then true else silentb k else true)) by (vm_compute; reflexivity).
      apply kinds_in with (t := t) in K; [|exact G]. rewrite IE, N3 in K. rewrite wc_silent by (apply silentb_silent; exact K). reflexivity. }
    destruct (Z.eqb_spec (t_kind t) TK_Symbol) as [K|N4].
    { apply rbind_Ok in E as (s & Es & E). unfold as_str in Es. destruct (utf8_valid _); [|discriminate Es]. injection Es as <-. rewrite wc_tok. unfold token_items, spelled. cbv zeta. rewrite K, Z.eqb_refl.
      destruct (find_spelling (t_text t) SPECIAL_SYMBOLS) as [n|] eqn:F; apply Ok_inj in E; subst a; [split; [reflexivity|]; intros X; unfold symbol_leaf in X; rewrite (special_not_comma _ _ F) in X; discriminate X|]. split; [rewrite K; reflexivity|]. apply nc_leaf. intros _ X. apply NC. split; auto. }
    injection E as <-. split; [|apply nc_leaf; intros X; contradiction]. rewrite wc_tok. unfold wa. cbn [ast_items]. unfold leaf_items, token_items. cbn [m_src from_src]. cbv zeta. apply Z.eqb_neq in N1. apply Z.eqb_neq in N2. apply Z.eqb_neq in N4. rewrite N1, N2, N4.
    destruct (t_kind t =? TK_String); [reflexivity|]. destruct (zin (t_kind t) NUMBERS); [reflexivity|]. cbn [zin existsb] in N3 |- *. rewrite N3. rewrite orb_false_r. reflexivity.
  Qed.

  (** ** Nodes *)
  Ltac use := repeat match goal with E : rec ?m = Ok ?a |- _ => let W := fresh "W" in let N := fresh "N" in destruct (Hrec m ltac:(assumption) a E) as [W N]; clear E end.
  Ltac sums := rewrite ?wa_call, ?wa_acall, ?wa_abstract, ?wa_syntax, ?wa_missing, ?wa_group, ?wa_bang; unfold wl, wcl in *; cbn [fold_right app] in *; rewrite ?wa_call, ?wa_acall, ?wa_abstract; unfold wl, wcl; cbn [fold_right]; try lia.
  Ltac nct := solve [apply nc_call | exact I | apply nc_acall; first [apply nc_call | exact I | assumption] | assumption].
  Ltac fin := use; split; [sums|nct].

  Lemma evens_chunks : forall (first : cst) r ps, chunks2 r = Ok ps -> evens (first :: r) = first :: map snd ps.
  Proof.
    intros first r ps Ep. revert ps Ep. destruct r as [|b r]; [intros ps [= <-]; reflexivity|]. revert b first. induction r as [|y|y z r IH] using pair_ind; intros b first ps E; cbn -[rbind] in E.
    - discriminate E.
    - injection E as <-. reflexivity.
    - apply rbind_Ok in E as (ps' & E & X). injection X as <-. cbn [evens map snd]. f_equal. apply (IH z y). exact E.
  Qed.

  Lemma w_simplify : forall first r aff data, wa (simplifyInfixInequality first r aff data) = (wa first + wl (map snd r))%nat /\ nc (simplifyInfixInequality first r aff data).
  Proof.
    intros first r aff data. unfold simplifyInfixInequality. cbv zeta. destruct (find _ SIMPLE_CHAINS); [split; [rewrite wa_call; reflexivity|apply nc_call]|]. destruct (find _ VECTOR_CHAINS).
    { split; [|apply nc_call]. rewrite wa_call. unfold wl at 1. cbn [fold_right]. rewrite wa_call. unfold wl. cbn [fold_right]. lia. }
    assert (X : wl (flat_map (fun '(s, a) => [symbol_leaf s no_meta; a]) r) = wl (map snd r)).
    { induction r as [|[s a] r IH]; [reflexivity|]. unfold wl in *. cbn [flat_map app fold_right map snd]. rewrite IH. reflexivity. }
    destruct aff as [[|]|]; (split; [|apply nc_call]); rewrite wa_call; unfold wl in *; cbn [fold_right]; rewrite X; reflexivity.
  Qed.
  Lemma k_inequality_loop : forall data pairs first r aff a, Forall (fun p => P (snd p)) pairs -> inequality_loop rec pairs first r aff data = Ok a ->
    wa a = (wa first + wl (map snd r) + wcl (map snd pairs))%nat /\ nc a.
  Proof.
    intros data pairs. induction pairs as [|[t y] pairs IH]; intros first r aff a H E; cbn [inequality_loop] in E.
    - apply Ok_inj in E. subst a. destruct (w_simplify first r aff data) as [S1 S2]. split; [|exact S2]. rewrite S1. unfold wcl. cbn. lia.
    - apply Forall_cons_iff in H as [H1 H2]. cbn [snd] in H1. apply rbind_Ok in E as (s & _ & E). apply rbind_Ok in E as (b & Eb & E). apply rbind_Ok in E as (v & _ & E). destruct (Hrec y H1 b Eb) as [W _].
      assert (M : forall f' r', (wa f' + wl (map snd r') = wa first + wl (map snd r) + wa b)%nat -> forall aff', inequality_loop rec pairs f' r' aff' data = Ok a -> wa a = (wa first + wl (map snd r) + wcl (map snd ((t, y) :: pairs)))%nat /\ nc a).
      { intros f' r' Q aff' E'. destruct (IH _ _ _ _ H2 E') as [I1 I2]. split; [|exact I2]. rewrite I1, Q. unfold wcl. cbn [map snd fold_right]. lia. }
      assert (A : forall q : list (string * ast), wl (map snd (q ++ [(s, b)])) = (wl (map snd q) + wa b)%nat). { intros q. rewrite map_app, wl_app. unfold wl. cbn [map snd fold_right]. lia. }
      destruct v as [v|]; [|eapply M; [|exact E]; rewrite A; lia]. destruct (match aff with Some _ => _ | None => _ end); [|eapply M; [|exact E]; rewrite A; lia].
      eapply M; [|exact E]. rewrite (proj1 (w_simplify first r aff data)). unfold wl. cbn [map snd fold_right]. lia.
  Qed.
  Lemma k_inequality : forall ch data, Forall P ch -> kp (abstractInfixInequality rec ch data) (wcl (evens ch)).
  Proof.
    intros ch data H a E. unfold abstractInfixInequality in E. destruct ch as [|first r]; [discriminate E|]. apply rbind_Ok in E as (b & Eb & E). apply rbind_Ok in E as (ps & Ep & E). apply rbind_Ok in E as (qs & Eq & E). rewrite (evens_chunks _ _ _ Ep).
    apply mapr_Ok in Eq. assert (Q : map snd qs = map snd ps). { clear - Eq. induction Eq as [|[x y] [t z] ps qs E F IH]; [reflexivity|]. destruct x; try discriminate E. injection E as -> ->. cbn. f_equal. exact IH. }
    split_ch. destruct (Hrec first H0 b Eb) as [W _]. apply k_inequality_loop in E.
    - rewrite Q in E. destruct E as [E1 E2]. split; [|exact E2]. rewrite E1, W. unfold wcl, wl. cbn. lia.
    - rewrite Forall_forall. intros p Hp. assert (Hs : In (snd p) (map snd qs)) by (apply in_map; exact Hp). rewrite Q in Hs. apply in_map_iff in Hs as ([x y] & Es & Hin). destruct (chunks_in _ _ _ _ _ Ep Hin) as [_ Hy]. rewrite <- Es. cbn. eapply in_P; eauto.
  Qed.
  Lemma k_tilde_rest : forall r lhs data a, Forall P r -> abstractInfixTilde_rest rec lhs r data = Ok a -> wa a = (wa lhs + wcl r)%nat /\ nc a.
  Proof.
    intros r. induction r as [|m|m x r IH] using pair_ind; intros lhs data a H E; cbn -[rbind] in E; [discriminate E| |]; split_ch.
    - apply rbind_Ok in E as (b & Eb & E). injection E as <-. fin.
    - destruct r as [|y r].
      + apply rbind_Ok in E as (b & Eb & E). apply rbind_Ok in E as (c & Ec & E). injection E as <-. fin.
      + apply rbind_Ok in E as (b & Eb & E). apply rbind_Ok in E as (c & Ec & E). apply IH in E; [|exact H]. destruct E as [E1 E2]. split; [|exact E2]. use. rewrite E1. sums.
  Qed.
  Lemma k_tilde : forall l data, Forall P l -> kp (abstractInfixTilde rec l data) (wcl l).
  Proof.
    intros l data H a E. destruct l as [|x [|y [|z [|v r]]]]; try discriminate E; split_ch; unfold abstractInfixTilde in E.
    - apply rbind_Ok in E as (b & Eb & E). apply rbind_Ok in E as (c & Ec & E). injection E as <-. fin.
    - apply rbind_Ok in E as (b & Eb & E). apply k_tilde_rest in E; [|auto]. destruct E as [E1 E2]. split; [|exact E2]. use. rewrite E1. sums.
    - apply rbind_Ok in E as (b & Eb & E). apply rbind_Ok in E as (c & Ec & E). apply k_tilde_rest in E; [|auto]. apply k_tilde_rest in Ec; [|auto]. destruct E as [E1 E2]. destruct Ec as [C1 _]. split; [|exact E2]. use. rewrite E1, C1. sums.
  Qed.
  Lemma k_selected : forall l r, Forall P l -> mapr rec l = Ok r -> wl (flat_map selectChildren r) = wcl l.
  Proof. intros l r H E. destruct (k_list _ _ H E) as [W N]. rewrite wl_selects by exact N. exact W. Qed.
  Lemma ends_weight : forall t mid u, silent t -> silent u -> wcl (Tok t :: mid ++ [Tok u]) = wcl mid.
  Proof. intros t mid u Ht Hu. pose proof (wcl_app mid [Tok u]) as A. unfold wcl in *. cbn [fold_right] in *. rewrite A, (wc_silent t Ht), (wc_silent u Hu). cbn. lia. Qed.
  Lemma dropped : forall (t : cst) mid u r, part_span_drop_first_and_last (t :: mid ++ [u]) = Ok r -> r = mid.
  Proof. intros t mid u r E. unfold part_span_drop_first_and_last in E. destruct (mid ++ [u]) as [|c l] eqn:L; [discriminate E|]. rewrite <- L in E. injection E as <-. apply removelast_last. Qed.
  Lemma mid_P : forall t mid u, Forall P (Tok t :: mid ++ [Tok u]) -> P (Tok t) /\ Forall P mid.
  Proof. intros t mid u H. apply Forall_cons_iff in H as [H1 H2]. apply Forall_app in H2 as [H2 _]. auto. Qed.
  Lemma k_group_args : forall op t mid u l, opens op t -> closes t u -> Forall P (Tok t :: mid ++ [Tok u]) -> abstractGroupNode rec (Tok t :: mid ++ [Tok u]) = Ok l -> wl l = wcl (Tok t :: mid ++ [Tok u]).
  Proof.
    intros op t mid u l Ho Hc H E. destruct (mid_P _ _ _ H) as [H1 H2]. rewrite ends_weight; [|eapply silent_opener; eauto|eapply silent_closer; eauto]. unfold abstractGroupNode in E. apply rbind_Ok in E as (r & Er & E). apply dropped in Er. subst r.
    apply rbind_Ok in E as (q & Eq & E). injection E as <-. apply k_selected; auto.
  Qed.
  Lemma k_missing_args : forall op t mid l, opens op t -> Forall P (Tok t :: mid) -> abstractGroupMissingCloser rec (Tok t :: mid) = Ok l -> wl l = wcl (Tok t :: mid).
  Proof.
    intros op t mid l Ho H E. split_ch. unfold wcl. cbn [fold_right]. rewrite (wc_silent t) by (eapply silent_opener; eauto). unfold abstractGroupMissingCloser in E. apply rbind_Ok in E as (q & Eq & E). injection E as <-. apply k_selected; auto.
  Qed.
  Lemma comma_weight : forall cs, P (Op KInfix IOP_CodeParser_Comma cs) -> forall r l, part_span_even_children o None cs = Ok r -> mapr rec r = Ok l -> wl l = wc (Op KInfix IOP_CodeParser_Comma cs).
  Proof.
    intros cs H r l E El. apply span_even in E. subst r. rewrite infix_weight by exact H. apply k_list in El; [|apply P_evens; eapply kids; eauto]. apply El.
  Qed.
  Lemma k_paren : forall op t mid u data, opens op t -> closes t u -> Forall P (Tok t :: mid ++ [Tok u]) -> kp (abstract_paren o rec (Tok t :: mid ++ [Tok u]) data) (wcl (Tok t :: mid ++ [Tok u])).
  Proof.
    intros op t mid u data Ho Hc H a E. destruct (mid_P _ _ _ H) as [H1 H2]. rewrite ends_weight; [|eapply silent_opener; eauto|eapply silent_closer; eauto].
    assert (D : rbind (part_span_drop_first_and_last (Tok t :: mid ++ [Tok u])) (fun cs => rbind (mapr rec cs) (fun l => Ok (AAbstractSyntaxError OpenParen l (from_src data)))) = Ok a -> wa a = wcl mid /\ nc a).
    { intros E'. apply rbind_Ok in E' as (r & Er & E'). apply dropped in Er. subst r. apply rbind_Ok in E' as (q & Eq & E'). injection E' as <-. split; [|exact I]. rewrite wa_abstract. apply (k_list _ _ H2 Eq). }
    destruct mid as [|c [|d mid]].
    - exact (D E).
    - cbn [app] in E. unfold abstract_paren in E. split_ch. assert (R : rec c = Ok a -> wa a = wcl [c] /\ nc a). { intros Ec. fin. } destruct c as [x|h m cop body|e ch|k cop ch|b ch src|x y src]; try exact (R E). destruct k; try exact (R E).
      destruct (Z.eqb_spec cop IOP_CodeParser_Comma) as [->|_]; [|exact (R E)]. apply rbind_Ok in E as (r & Er & E). apply rbind_Ok in E as (l & El & E). injection E as <-. split; [|exact I]. rewrite wa_abstract. rewrite (comma_weight _ H0 _ _ Er El). unfold wcl. cbn. lia.
    - destruct mid; exact (D E).
  Qed.
  Lemma k_naked : forall e op t mid u data, opens op t -> closes t u -> Forall P (Tok t :: mid ++ [Tok u]) -> kp (abstract_naked o rec e (Tok t :: mid ++ [Tok u]) data) (wcl (Tok t :: mid ++ [Tok u])).
  Proof.
    intros e op t mid u data Ho Hc H a E. destruct (mid_P _ _ _ H) as [H1 H2]. rewrite ends_weight; [|eapply silent_opener; eauto|eapply silent_closer; eauto].
    destruct mid as [|c [|d mid]].
    - injection E as <-. split; [reflexivity|exact I].
    - cbn [app] in E. unfold abstract_naked in E. split_ch. assert (R : rbind (rec c) (fun a => Ok (AAbstractSyntaxError e [a] (from_src data))) = Ok a -> wa a = wcl [c] /\ nc a). { intros Ec. apply rbind_Ok in Ec as (b & Eb & Ec). injection Ec as <-. fin. }
      destruct c as [x|h m cop body|e2 ch|k cop ch|b ch src|x y src]; try exact (R E). destruct k; try exact (R E).
      destruct (Z.eqb_spec cop IOP_CodeParser_Comma) as [->|_]; [|exact (R E)]. apply rbind_Ok in E as (r & Er & E). apply rbind_Ok in E as (l & El & E). injection E as <-. split; [|exact I]. rewrite wa_abstract. rewrite (comma_weight _ H0 _ _ Er El). unfold wcl. cbn. lia.
    - exfalso. destruct mid; discriminate E.
  Qed.
  Lemma k_group : forall op ch data, P (Op KGroup op ch) -> kp (abstract_group o rec op ch data) (wc (Op KGroup op ch)).
  Proof.
    intros op ch data H. rewrite wc_op. pose proof (kids _ _ _ H) as Hc. destruct (group_ends _ _ (fits_P _ H)) as (t & mid & u & -> & Ho & Hcl). unfold abstract_group.
    destruct (op =? _); [eapply k_paren; eauto|]. destruct (op =? _); [eapply k_naked; eauto|]. destruct (op =? _); [eapply k_naked; eauto|]. destruct (op =? _); [eapply k_naked; eauto|].
    intros a E. apply rbind_Ok in E as (l & El & E). injection E as <-. split; [|apply nc_call]. rewrite wa_call. eapply k_group_args; eauto.
  Qed.

  Lemma k_call : forall h missing op ch data, P (Call h missing op ch) -> kp (abstract_call_node rec h missing op ch data) (wc (Call h missing op ch)).
  Proof.
    intros h missing op ch data H a E. pose proof (fits_P _ H) as F. pose proof (P_children P closed _ H) as Hc.
    assert (X : exists hd, h = Aggregate hd /\ P hd /\ Forall P ch). { inversion F; subst; eexists; (split; [reflexivity|]); rewrite children_call in Hc; cbn [app] in Hc; apply Forall_cons_iff in Hc as [? ?]; auto. }
    destruct X as (hd & -> & Hh & Hch). rewrite wc_call. cbn [abstract_call_node] in E. inversion F as [| | | | | | | | | | | |? gop ? t mid u Et Ho Hcl|? gop ? t mid Et Ho|]; subst.
    - assert (G : forall l, abstractGroupNode rec (Tok t :: mid ++ [Tok u]) = Ok l -> wl l = wcl (Tok t :: mid ++ [Tok u])) by (intros l El; eapply k_group_args; eauto). 
      destruct (op =? CALLOP_CodeParser_GroupSquare).
      + assert (N : rbind (issue_between (call_issue hd) (Tok t :: mid ++ [Tok u])) (fun issues => rbind (rec hd) (fun a => rbind (abstractGroupNode rec (Tok t :: mid ++ [Tok u])) (fun l => Ok (ACall a l (mk_ameta (Known data) issues))))) = Ok a -> wa a = (wc hd + wcl (Tok t :: mid ++ [Tok u]))%nat /\ nc a).
        { intros E'. apply rbind_Ok in E' as (is & _ & E'). apply rbind_Ok in E' as (b & Eb & E'). apply rbind_Ok in E' as (l & El & E'). injection E' as <-. use. split; [rewrite wa_acall, W, (G l El); reflexivity|nct]. }
        destruct mid as [|inner mid]; [exact (N E)|]. destruct inner as [x|h2 m2 op2 body|e ch|k gop2 ch2|bb ch src|x y src]; try exact (N E). destruct k; try exact (N E). cbn [app] in E, N. destruct (Z.eqb_spec gop2 GOP_CodeParser_GroupSquare) as [->|_]; [|exact (N E)].
        destruct mid as [|m2 mid]; [|destruct mid; discriminate E]. cbn [app] in E. apply rbind_Ok in E as (is & _ & E). apply rbind_Ok in E as (b & Eb & E). apply rbind_Ok in E as (l & El & E). injection E as <-. use. split; [|apply nc_call]. rewrite wa_call.
        cbn [app] in Hch. split_ch. destruct (group_ends _ _ (fits_P _ H1)) as (t2 & mid2 & u2 & -> & Ho2 & Hc2). apply (k_group_args _ _ _ _ _ Ho2 Hc2 (kids _ _ _ H1)) in El. unfold wl at 1. cbn [fold_right]. fold (wl l). rewrite W, El. rewrite <- wc_op with (k := KGroup) (op := GOP_CodeParser_GroupSquare).
        unfold wcl. cbn [fold_right app]. rewrite (wc_silent t), (wc_silent u); [lia| |]; [eapply silent_closer; eauto|eapply silent_opener; eauto].
      + destruct (op =? CALLOP_CodeParser_GroupTypeSpecifier).
        * apply rbind_Ok in E as (s & _ & E). apply rbind_Ok in E as (b & Eb & E). apply rbind_Ok in E as (l & El & E). injection E as <-. use. split; [|exact I]. rewrite wa_acall, wa_call, (G l El). unfold wl. cbn [fold_right]. rewrite W. lia.
        * apply rbind_Ok in E as (is & _ & E). apply rbind_Ok in E as (b & Eb & E). apply rbind_Ok in E as (l & El & E). injection E as <-. use. split; [|apply nc_call]. rewrite wa_call. unfold wl at 1. cbn [fold_right]. fold (wl l). rewrite W, (G l El). reflexivity.
    - apply rbind_Ok in E as (b & Eb & E). apply rbind_Ok in E as (l & El & E). pose proof (k_missing_args _ _ _ _ Ho Hch El) as G. use. destruct (op =? _); [injection E as <-; split; [rewrite wa_missing, W, G; reflexivity|exact I]|].
      destruct (op =? _); injection E as <-; (split; [|exact I]); rewrite wa_missing; [rewrite wa_call, G; unfold wl; cbn [fold_right]; rewrite W; lia|]. unfold wl at 1. cbn [fold_right]. fold (wl l). rewrite W, G. reflexivity.
  Qed.
  Lemma blank_silent : forall t bop pbop, blank_entry (t_kind t) bop pbop -> silent t.
  Proof. intros t bop pbop H. apply silentb_silent. destruct H as [(K & _)|[(K & _)|(K & _)]]; rewrite K; reflexivity. Qed.
  Lemma string_weight : forall t, t_kind t = TK_String -> forall s d, m_src d = Known (t_src t) -> wa (string_leaf s d) = wc (Tok t).
  Proof. intros t K s d M. rewrite wc_tok. unfold token_items, string_leaf, wa. cbn [ast_items]. unfold leaf_items. rewrite K, M. reflexivity. Qed.
  Lemma k_compound : forall op ch data, P (Op KCompound op ch) -> kp (abstract_compound o rec op ch data) (wc (Op KCompound op ch)).
  Proof.
    intros op ch data H a E. rewrite wc_op. pose proof (kids _ _ _ H) as Hc. pose proof (fits_P _ H) as F. inversion F as [| | | | | | | | |? ? C| | | | |]; subst. unfold abstract_compound in E.
    assert (S : forall x y, ch = [x; y] -> wcl ch = (wc x + wc y)%nat) by (intros x y ->; unfold wcl; cbn [fold_right]; lia).
    inversion C as [t u bop pbop Hb Hu|s t n bop pbop Hs Hb Ho|s t Hs Ht|t u Ht Hu|t u Ht Hu|t u Ht Hu]; subst; rewrite (S _ _ eq_refl); split_ch.
    - rewrite (wc_silent t) by (eapply blank_silent; eauto). assert (Z : zin op [COP_Blank; COP_BlankSequence; COP_BlankNullSequence] = true) by (destruct Hb as [(_ & -> & _)|[(_ & -> & _)|(_ & -> & _)]]; reflexivity).
      rewrite Z in E. apply rbind_Ok in E as (b & Eb & E). injection E as <-. fin.
    - assert (Z : zin op [COP_Blank; COP_BlankSequence; COP_BlankNullSequence] = false /\ zin op [COP_CodeParser_PatternBlank; COP_CodeParser_PatternBlankSequence; COP_CodeParser_PatternBlankNullSequence] = true) by (destruct Hb as [(_ & _ & ->)|[(_ & _ & ->)|(_ & _ & ->)]]; split; reflexivity).
      destruct Z as [Z1 Z2]. rewrite Z1, Z2 in E. apply rbind_Ok in E as (b & Eb & E). apply rbind_Ok in E as (c & Ec & E). injection E as <-. fin.
    - cbn in E. rewrite Ht in E. cbn -[rbind] in E. apply rbind_Ok in E as (b & Eb & E). injection E as <-. rewrite (wc_silent t) by (apply silentb_silent; rewrite Ht; reflexivity). use. split; [|apply nc_call]. sums. rewrite W. unfold wl; cbn [fold_right]. rewrite wa_call. unfold wl. cbn [fold_right]. lia.
    - rewrite (wc_silent t) by (apply silentb_silent; rewrite Ht; reflexivity). destruct Hu as [Hu|Hu]; cbn -[rbind abstract_replace_token] in E; rewrite Hu in E; cbn -[rbind abstract_replace_token] in E.
      + apply rbind_Ok in E as (b & Eb & E). injection E as <-. destruct (k_token u H1 b Eb) as [W N]. fin.
      + apply rbind_Ok in E as (b & Eb & E). injection E as <-. split; [|apply nc_call]. rewrite wa_call. unfold wl. cbn [fold_right]. rewrite (string_weight u Hu) by reflexivity. lia.
    - rewrite (wc_silent t) by (apply silentb_silent; rewrite Ht; reflexivity). cbn -[rbind] in E. rewrite Hu in E. cbn -[rbind] in E. apply rbind_Ok in E as (b & Eb & E). injection E as <-. fin.
    - rewrite (wc_silent t) by (apply silentb_silent; rewrite Ht; reflexivity). cbn -[rbind] in E. rewrite Hu in E. cbn -[rbind] in E. apply rbind_Ok in E as (b & Eb & E). injection E as <-. fin.
  Qed.
  Lemma k_prefix : forall op ch data, P (Op KPrefix op ch) -> kp (abstract_prefix o rec op ch data) (wc (Op KPrefix op ch)).
  Proof.
    intros op ch data H. pose proof (kids _ _ _ H) as Hc. pose proof (fits_P _ H) as F. inversion F as [|? t x prec Ht| | | | | | | | | | | | |]; subst. split_ch. rewrite prefix_weight by exact H. unfold abstract_prefix.
    destruct (op =? PREOP_Minus). { intros a E. apply rbind_Ok in E as (g & Eg & E). exact (k_negated_of _ _ _ H1 Eg a E). }
    destruct (op =? PREOP_Plus); [apply k_prefix_plus; exact H1|]. destruct (op =? _). { intros a E. unfold abstractNot2 in E. apply rbind_Ok in E as (s & _ & E). apply rbind_Ok in E as (b & Eb & E). injection E as <-. fin. }
    destruct (op =? _). { intros a E. destruct (leaf_of _ _); [apply rbind_Ok in E as (b & Eb & E); apply rbind_Ok in E as (c & Ec & E); injection E as <-; use; split; [|exact I]; rewrite wa_bang, W, W0; rewrite (wc_silent t) by (eapply silent_prefix; eauto); reflexivity|].
      apply rbind_Ok in E as (b & Eb & E). injection E as <-. fin. }
    destruct (op =? _). { intros a E. destruct x as [u| | | | |]; try discriminate E. destruct (Z.eqb_spec (t_kind u) TK_String) as [K|_]; [|discriminate E]. apply rbind_Ok in E as (s & _ & E). injection E as <-. split; [|apply nc_call]. rewrite wa_call. unfold wl. cbn [fold_right].
      rewrite (string_weight u K) by reflexivity. lia. }
    intros a E. apply rbind_Ok in E as (b & Eb & E). injection E as <-. fin.
  Qed.
  Lemma k_postfix : forall op ch data, P (Op KPostfix op ch) -> kp (abstract_postfix rec op ch data) (wc (Op KPostfix op ch)).
  Proof.
    intros op ch data H a E. rewrite wc_op. pose proof (kids _ _ _ H) as Hc. pose proof (fits_P _ H) as F. inversion F as [| | |? x t prec Ht| | | | | | | | | | |]; subst. split_ch.
    assert (S : silent t) by (apply silent_infix; [exact H1|rewrite Ht; exact I]). assert (W0 : wcl [x; Tok t] = wc x) by (unfold wcl; cbn [fold_right]; rewrite (wc_silent t S); lia). rewrite W0. unfold abstract_postfix in E.
    destruct (op =? _). { apply rbind_Ok in E as (b & Eb & E). injection E as <-. fin. }
    destruct (op =? _). { cbv zeta in E. destruct (_ =? _); [|destruct (_ =? _); [|discriminate E]].
      - apply rbind_Ok in E as ([z b] & Eb & E). injection E as <-. rewrite wa_acall. pose proof (k_derivative _ _ _ H0 Eb) as W. split; [|exact I]. unfold wl. cbn [fold_right]. rewrite W. cbn. lia.
      - apply rbind_Ok in E as (s & _ & E). apply rbind_Ok in E as (b & Eb & E). injection E as <-. use. split; [|exact I]. rewrite wa_acall. unfold wl. cbn [fold_right]. rewrite W. cbn. lia. }
    apply rbind_Ok in E as (b & Eb & E). injection E as <-. fin.
  Qed.
  Lemma k_binary : forall op ch data, P (Op KBinary op ch) -> kp (abstract_binary o rec op ch data) (wc (Op KBinary op ch)).
  Proof.
    intros op ch data H a E. pose proof (kids _ _ _ H) as Hc. pose proof (fits_P _ H) as F. assert (X : exists x t y, ch = [x; Tok t; y]) by (inversion F; subst; eauto). destruct X as (x & t & y & ->). split_ch. rewrite binary_weight by exact H. clear F. unfold abstract_binary in E.
    destruct (op =? _). { unfold abstractTimes_BinaryNode_Divide in E. apply rbind_Ok in E as (fl & Ef & E). apply rbind_Ok in E as (args & Ea & E). apply rbind_Ok in E as (r & Er & E). injection E as <-. split; [|apply nc_call]. rewrite wa_call, wl_app.
      rewrite (k_operands rec fl args Hrec (flatten_safe _ _ _ H0 Ef) Ea), (k_flatten _ _ _ H0 Ef). unfold reciprocate_into_ast in Er. apply rbind_Ok in Er as (b & Eb & Er). injection Er as <-. use. unfold wl. cbn [fold_right]. rewrite wa_call. unfold wl. cbn [fold_right]. rewrite W. cbn. lia. }
    destruct (op =? _). { apply rbind_Ok in E as (b & Eb & E). apply rbind_Ok in E as (c & Ec & E). injection E as <-. fin. }
    destruct (op =? _). { apply rbind_Ok in E as (b & Eb & E). apply rbind_Ok in E as (c & Ec & E). use. destruct (q_old_at_at_at o); injection E as <-; (split; [|apply nc_call]); rewrite wa_call; unfold wl; cbn [fold_right]; rewrite W, W0; [|lia]. rewrite wa_call. cbn. lia. }
    destruct (op =? _). { apply rbind_Ok in E as (b & Eb & E). apply rbind_Ok in E as (c & Ec & E). injection E as <-. fin. }
    destruct (zin _ _). { destruct y as [u| | | | |]; try discriminate E. destruct (Z.eqb_spec (t_kind u) TK_String) as [K|_]; [|discriminate E]. apply rbind_Ok in E as (s & _ & E). apply rbind_Ok in E as (b & Eb & E). injection E as <-. use. split; [|apply nc_call].
      rewrite wa_call. unfold wl. cbn [fold_right]. rewrite (string_weight u K) by reflexivity. lia. }
    destruct (op =? _). { destruct (leaf_of TK_Equal (Tok t) && leaf_of TK_Dot y) eqn:L; [|discriminate E]. apply andb_true_iff in L as [_ L]. destruct y as [u| | | | |]; try discriminate L. cbn in L. apply Z.eqb_eq in L. apply rbind_Ok in E as (b & Eb & E). injection E as <-.
      rewrite (wc_silent u) by (apply silentb_silent; rewrite L; reflexivity). fin. }
    apply rbind_Ok in E as (b & Eb & E). apply rbind_Ok in E as (c & Ec & E). destruct (_ && _); injection E as <-; fin.
  Qed.
  Lemma k_mapped : forall (f : cst -> res ast) l r, Forall P l -> (forall n, P n -> kp (f n) (wc n)) -> mapr f l = Ok r -> wl r = wcl l.
  Proof.
    intros f l r H Hf E. apply mapr_Ok in E. induction E as [|a b l r E F IH]; [reflexivity|]. split_ch. specialize (IH H). destruct (Hf a H0 b E) as [J1 J2]. unfold wl, wcl in *. cbn [fold_right]. lia.
  Qed.
  Lemma k_infix : forall op ch data, P (Op KInfix op ch) -> kp (abstract_infix o rec op ch data) (wc (Op KInfix op ch)).
  Proof.
    intros op ch data H. pose proof (kids _ _ _ H) as Hc. pose proof (P_evens P _ Hc) as He. unfold abstract_infix. destruct (op =? _). { rewrite infix_weight by exact H. apply k_inequality. exact Hc. }
    destruct (Z.eqb_spec op IOP_Plus) as [->|_]; [apply k_plus; exact H|]. rewrite infix_weight by exact H.
    destruct (op =? _). { intros a E. apply rbind_Ok in E as (l & El & E). apply span_even in El. subst l. apply k_times_seq in E; [|exact He]. destruct E as (args & -> & W). split; [|apply nc_call]. rewrite wa_call. exact W. }
    destruct (op =? _). { intros a E. apply rbind_Ok in E as (l & El & E). apply span_even in El. subst l. apply rbind_Ok in E as (l & El & E). apply (quirks_same IOP_Divisible) in El; [|exact He]. subst l. apply rbind_Ok in E as (args & Ea & E). injection E as <-. split; [|apply nc_call].
      rewrite wa_call, <- wcl_rev. apply k_list in Ea; [apply Ea|]. apply Forall_rev. exact He. }
    destruct (op =? _). { intros a E. apply rbind_Ok in E as (l & El & E). apply span_even in El. subst l. apply rbind_Ok in E as (args & Ea & E). injection E as <-. split; [|apply nc_call]. rewrite wa_call. eapply k_mapped; [exact He| |exact Ea].
      intros n Hn. destruct n as [t| | | | |]; try (apply Hrec; exact Hn). destruct (Z.eqb_spec (t_kind t) TK_Fake_ImplicitNull) as [K|_]; [|apply Hrec; exact Hn]. intros b [= <-]. split; [|intros X; discriminate X]. rewrite wc_tok. unfold token_items. rewrite K. reflexivity. }
    destruct (op =? _). { intros a E. apply rbind_Ok in E as (l & El & E). apply span_even in El. subst l. unfold abstractMessageName in E. destruct (evens ch) as [|x r]; [discriminate E|]. cbv zeta in E. split_ch. apply rbind_Ok in E as (b & Eb & E). apply rbind_Ok in E as (args & Ea & E). injection E as <-. split; [|apply nc_call].
      rewrite wa_call. use. assert (Wr : wl args = wcl r). { eapply k_mapped; [exact He| |exact Ea]. intros n Hn. destruct n as [t| | | | |]; try (apply Hrec; exact Hn). destruct (Z.eqb_spec (t_kind t) TK_String) as [K|_]; [|apply Hrec; exact Hn].
        intros c Ec. apply rbind_Ok in Ec as (s & _ & Ec). injection Ec as <-. split; [apply string_weight; auto|]. intros X. discriminate X. }
      unfold wl, wcl in *. cbn [fold_right]. rewrite W, Wr. reflexivity. }
    destruct (op =? _). { intros a E. apply rbind_Ok in E as (l & El & E). apply span_even in El. subst l. exact (k_tilde _ _ He a E). }
    destruct (Nat.even _); [intros a E; discriminate E|]. intros a E. apply rbind_Ok in E as (l & El & E). apply span_even in El. subst l. apply rbind_Ok in E as (l & El & E). assert (l = evens ch).
    { destruct (zin _ _); [injection El as <-; reflexivity|]. eapply quirks_same; [exact He|exact El]. }
    subst l. apply rbind_Ok in E as (args & Ea & E). injection E as <-. split; [|apply nc_call]. rewrite wa_call. apply k_list in Ea; [apply Ea|exact He].
  Qed.
  Lemma ternary_silent : forall op t u p1 p2, ternary_entry op (t_kind t) (t_kind u) p1 p2 -> silent t /\ silent u.
  Proof. intros op t u p1 p2 H. unfold ternary_entry in H. split; apply silentb_silent; repeat match goal with H : _ \/ _ |- _ => destruct H end; repeat match goal with H : _ /\ _ |- _ => destruct H end; match goal with |- silentb (t_kind ?x) = true => match goal with K : t_kind x = _ |- _ => rewrite K; reflexivity | K : t_kind x = _ \/ _ |- _ => destruct K as [K|K]; rewrite K; reflexivity end end. Qed.
  Lemma k_ternary : forall op ch data, P (Op KTernary op ch) -> kp (abstract_ternary rec op ch data) (wc (Op KTernary op ch)).
  Proof.
    intros op ch data H a E. pose proof (kids _ _ _ H) as Hc. pose proof (fits_P _ H) as F. rewrite wc_op.
    assert (X : exists x t y u z, ch = [x; Tok t; y; Tok u; z] /\ silent t /\ silent u).
    { inversion F as [| | | | | |? x t y u z p1 p2 Ht|x t y u v K1 K2 K3| | | | | | |]; subst; [destruct (ternary_silent _ _ _ _ _ Ht); eauto 10|]. do 5 eexists. split; [reflexivity|]. split; apply silentb_silent; [rewrite K1|rewrite K2]; reflexivity. }
    destruct X as (x & t & y & u & z & -> & S1 & S2). clear F. split_ch. assert (Wc : wcl [x; Tok t; y; Tok u; z] = (wc x + wc y + wc z)%nat) by (unfold wcl; cbn [fold_right]; rewrite (wc_silent t S1), (wc_silent u S2); lia). rewrite Wc. clear Wc. unfold abstract_ternary in E.
    destruct (op =? _).
    { apply rbind_Ok in E as (m & Em & E). apply rbind_Ok in E as (b & Eb & E). apply rbind_Ok in E as (c & Ec & E). destruct (Hrec _ H2 _ Em) as [Wm Nm]. destruct (match y with Op KInfix iop _ => _ | _ => _ end) eqn:Ey.
      - destruct y as [|h mm op2 body|e ch|k iop ch|bb ch src|v1 v2 src]; try discriminate Ey. destruct k; try discriminate Ey. apply Z.eqb_eq in Ey. subst iop. destruct (Hcomma _ _ Em) as (args & d & ->). cbn -[rbind] in E. injection E as <-. clear Em. use. rewrite wa_call in Wm. split; [|exact I]. rewrite wa_acall, wa_abstract. unfold wl in *. cbn [fold_right]. lia.
      - injection E as <-. clear Em. use. split; [|apply nc_acall; exact Nm]. rewrite wa_acall. unfold wl. cbn [fold_right]. lia. }
    destruct (op =? _).
    { destruct (leaf_of TK_Equal (Tok u) && leaf_of TK_Dot z) eqn:L; [|discriminate E]. apply andb_true_iff in L as [_ L]. destruct z as [v| | | | |]; try discriminate L. cbn in L. apply Z.eqb_eq in L. apply rbind_Ok in E as (b & Eb & E). apply rbind_Ok in E as (c & Ec & E). injection E as <-.
      rewrite (wc_silent v) by (apply silentb_silent; rewrite L; reflexivity). fin. }
    apply rbind_Ok in E as (b & Eb & E). apply rbind_Ok in E as (c & Ec & E). apply rbind_Ok in E as (d & Ed & E). destruct (op =? _); injection E as <-; fin.
  Qed.
  Lemma k_prefix_binary : forall op ch data, P (Op KPrefixBinary op ch) -> kp (abstract_prefix_binary rec op ch data) (wc (Op KPrefixBinary op ch)).
  Proof.
    intros op ch data H a E. pose proof (kids _ _ _ H) as Hc. pose proof (fits_P _ H) as F. rewrite wc_op. inversion F as [| |? t x y op2 Ht| | | | | | | | | | | |]; subst. split_ch. assert (Wc : wcl [Tok t; x; y] = (wc x + wc y)%nat) by (unfold wcl; cbn [fold_right]; rewrite (wc_silent t) by (eapply silent_integral; eauto); lia).
    rewrite Wc. clear Wc. unfold abstract_prefix_binary in E. assert (R : rbind (rec x) (fun a => rbind (rec y) (fun b => Ok (call (op_symbol KPrefixBinary op) [a; b] (from_src data)))) = Ok a -> wa a = (wc x + wc y)%nat /\ nc a).
    { intros E'. apply rbind_Ok in E' as (b & Eb & E'). apply rbind_Ok in E' as (c & Ec & E'). injection E' as <-. fin. }
    destruct y as [v|h m cop body|e ch|k dop cs|bb ch src|v1 v2 src]; try exact (R E). destruct k; try exact (R E). destruct (zin _ _); [|exact (R E)]. destruct cs as [|v1 [|var [|? ?]]]; try discriminate E. pose proof (kids _ _ _ H2) as Hk. rewrite (prefix_weight _ _ _ H2). split_ch.
    apply rbind_Ok in E as (b & Eb & E). apply rbind_Ok in E as (c & Ec & E). injection E as <-. fin.
  Qed.
  Lemma k_node : forall n data, P n -> kp (abstract_node o rec n data) (wc n).
  Proof.
    intros n data H. pose proof (fits_P _ H) as F. destruct n as [t|h m op body|e ch|k op ch|b ch src|x y src]; cbn [abstract_node].
    - apply k_token. exact H.
    - apply k_call. exact H.
    - inversion F as [| | | | | | | | | | | | | |? x t y K]; subst. pose proof (P_children P closed _ H) as Hc. cbn [children] in Hc. split_ch. intros a E. apply rbind_Ok in E as (b & Eb & E). apply rbind_Ok in E as (c & Ec & E). injection E as <-. use. split; [|exact I].
      rewrite wa_syntax, wc_err. unfold wl, wcl. cbn [fold_right]. rewrite (wc_silent t); [lia|]. apply silentb_silent. rewrite K. destruct e; reflexivity.
    - destruct k; [apply k_prefix|apply k_infix|apply k_postfix|apply k_binary|apply k_ternary|apply k_prefix_binary|apply k_compound|apply k_group| |]; try exact H; inversion F as [| | | | | | | | | | |? t mid Ho| | |]; subst.
      intros a E. apply rbind_Ok in E as (l & El & E). injection E as <-. split; [|exact I]. rewrite wa_group, wc_op. eapply k_missing_args; [exact Ho|eapply kids; exact H|exact El].
    - inversion F.
    - inversion F.
  Qed.
End keep.

Lemma comma_head : forall o k ch a, abstract_ o k (Op KInfix IOP_CodeParser_Comma ch) = Ok a -> exists args d, a = call "CodeParser`Comma" args d.
Proof.
  intros o k ch a E. destruct k as [|k]; [discriminate E|]. cbn [abstract_] in E. apply rbind_Ok in E as (data & _ & E). apply rbind_Ok in E as (x & Ex & E). destruct (a_dbg o && _); [discriminate E|]. injection E as <-.
  cbn [abstract_node] in Ex. unfold abstract_infix in Ex. change (IOP_CodeParser_Comma =? IOP_CodeParser_InfixInequality) with false in Ex. change (IOP_CodeParser_Comma =? IOP_Plus) with false in Ex.
  change (IOP_CodeParser_Comma =? IOP_Times) with false in Ex. change (IOP_CodeParser_Comma =? IOP_Divisible) with false in Ex. change (IOP_CodeParser_Comma =? IOP_CompoundExpression) with false in Ex.
  change (IOP_CodeParser_Comma =? IOP_MessageName) with false in Ex. change (IOP_CodeParser_Comma =? IOP_CodeParser_InfixTilde) with false in Ex. cbv iota in Ex.
  destruct (Nat.even (length ch)); [discriminate Ex|]. apply rbind_Ok in Ex as (l & _ & Ex). apply rbind_Ok in Ex as (l2 & _ & Ex). apply rbind_Ok in Ex as (args & _ & Ex). change (op_symbol KInfix IOP_CodeParser_Comma) with "CodeParser`Comma"%string in Ex. apply Ok_inj in Ex. subst x. eauto.
Qed.
Lemma keeps_weight : forall w o k n, P o n -> kp w (abstract_ o k n) (wc w n).
Proof.
  intros w o k. induction k as [|k IH]; intros n H; [intros a E; discriminate E|]. intros a E. cbn [abstract_] in E. apply rbind_Ok in E as (data & _ & E). apply rbind_Ok in E as (x & Ex & E). destruct (a_dbg o && _); [discriminate E|]. injection E as <-.
  refine (k_node w o (abstract_ o k) IH _ n data H x Ex). intros ch b Eb. eapply comma_head. exact Eb.
Qed.
Lemma loc_dec : forall a b : loc, {a = b} + {a <> b}.  Proof. decide equality; apply Z.eq_dec. Qed.
Lemma span_dec : forall a b : span, {a = b} + {a <> b}.  Proof. decide equality; apply loc_dec. Qed.
Lemma item_dec : forall a b : item, {a = b} + {a <> b}.  Proof. decide equality; try apply span_dec. apply list_eq_dec, Z.eq_dec. Qed.
Lemma wt_count : forall x l, wt (fun y => if item_dec y x then 1%nat else 0%nat) l = count_occ item_dec l x.
Proof. intros x l. induction l as [|y l IH]; [reflexivity|]. unfold wt in *. cbn. destruct (item_dec y x); rewrite IH; reflexivity. Qed.
Theorem abstract_keeps : forall o n a ts, good n -> keeps_names o n -> abstract_cst o n = Ok a -> tokens_of n ts -> Permutation (flat_map token_items ts) (ast_items a).
Proof.
  intros o n a ts G [K1 K2] E Ht. assert (Hp : P o n).
  { split; [exact G|]. split; apply Forall_forall; [intros t Hin; exact (K1 _ t (tokens_of_toks n) Hin)|intros m Hin; exact (K2 _ m (preorder_nodes n) Hin)]. }
  assert (ts = toks n) by (apply tokens_of_det; exact Ht). subst ts. apply (Permutation_count_occ item_dec). intros x. rewrite <- !wt_count.
  destruct (keeps_weight (fun y => if item_dec y x then 1%nat else 0%nat) o _ _ Hp _ E) as [W _]. symmetry. exact W.
Qed.
