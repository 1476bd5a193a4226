(** The issues that abstraction adds.  The proof goes along [AbstractKeep]: weights of issues instead of weights of names. *)
From Coq Require Import String.
From Coq Require Import ZArith List Bool Lia Permutation.
From Verif Require Import Base Source WLChar LongNames SpecText Iter GenTokenKind TokenKind Tokenizer GenPrec GenOps GenParselets Parselets Cst SpecCst CstProofs Parser SpecParser SpecParse TokenizerProofs ParserTheorems
  Ast Abstract SpecAbstract SpecItems AbstractProofs AbstractShape AbstractTotal AbstractTheorems AbstractKeep SpecIssues.
Import ListNotations.
Local Open Scope list_scope.
Local Open Scope Z_scope.

(** ** What is reported *)
Definition src_of (n : cst) : asource := match get_source n with Ok s => Known s | _ => Unknown end.
Definition between_ (i : option (atag * asev * Z)) (ch : list cst) : list aissue :=
  match i, ch with Some (tag, sev, conf), first :: _ => [mk_aissue tag sev (src_of first) conf [src_of (last ch first)]] | _, _ => [] end.
Definition twice (ch : list cst) : bool := match ch with _ :: Op KGroup gop _ :: _ => gop =? GOP_CodeParser_GroupSquare | _ => false end.
Definition report (n : cst) : list aissue :=
  match n with
  | Op KPrefix op [x; _] => if op =? PREOP_CodeParser_PrefixNot2 then [mk_aissue PrefixNotNot SevWarning (src_of x) 100 []] else []
  | Op KInfix op ch => if op =? IOP_MessageName then if 2 <? zlen (tl (evens ch)) then [mk_aissue SyntaxUndocumentedMessageName SevError (src_of n) 100 []] else [] else []
  | Call (Aggregate h) false op ch =>
      if op =? CALLOP_CodeParser_GroupSquare then if twice ch then match ch with [_; _; _] => between_ (part_issue h) ch | _ => [] end else between_ (call_issue h) ch
      else if op =? CALLOP_CodeParser_GroupTypeSpecifier then
        if match h with Tok t => t_kind t =? TK_String | _ => false end then [] else [mk_aissue StrangeCall SevError (src_of h) 95 []]
      else between_ (part_issue h) ch
  | _ => []
  end.
Lemma issue_between_eq : forall i ch l, issue_between i ch = Ok l -> l = between_ i ch.
Proof.
  intros i ch l E. unfold issue_between in E. destruct i as [[[tag sev] conf]|]; [|injection E as <-; destruct ch; reflexivity]. destruct ch as [|c ch]; [discriminate E|].
  apply rbind_Ok in E as (a & Ea & E). apply rbind_Ok in E as (b & Eb & E). injection E as <-. unfold between_, src_of. rewrite Ea, Eb. reflexivity.
Qed.

(** ** Weights *)
Section keep.
  Variable w : aissue -> nat.
  Definition wt (l : list aissue) : nat := fold_right (fun i n => (w i + n)%nat) 0%nat l.
  Lemma wt_app : forall a b, wt (a ++ b) = (wt a + wt b)%nat.
  Proof. intros a b. induction a as [|x a IH]; [reflexivity|]. unfold wt in *. cbn. lia. Qed.
  Definition wa (a : ast) : nat := wt (ast_issues a).
  Definition wl (l : list ast) : nat := fold_right (fun a n => (wa a + n)%nat) 0%nat l.
  Definition own (n : cst) : nat := wt (report n).
  Definition wc (n : cst) : nat := wt (flat_map report (nodes n)).
  Definition wcl (l : list cst) : nat := fold_right (fun a n => (wc a + n)%nat) 0%nat l.
  Definition md (d : ameta) : nat := wt (m_issues d).
  Lemma md_src : forall s, md (from_src s) = 0%nat.  Proof. reflexivity. Qed.
  Lemma md_none : md no_meta = 0%nat.  Proof. reflexivity. Qed.
  Lemma md_mk : forall s l, md (mk_ameta s l) = wt l.  Proof. reflexivity. Qed.
  Lemma wl_eq : forall l, wt (flat_map ast_issues l) = wl l.
  Proof. intros l. induction l as [|a l IH]; [reflexivity|]. cbn [flat_map wl fold_right]. rewrite wt_app. fold (wl l). unfold wa. lia. Qed.
  Lemma wcl_eq : forall l, wt (flat_map report (flat_map nodes l)) = wcl l.
  Proof. intros l. induction l as [|a l IH]; [reflexivity|]. cbn [flat_map wcl fold_right]. rewrite flat_map_app, wt_app. fold (wcl l). unfold wc. lia. Qed.
  Lemma wl_app : forall a b, wl (a ++ b) = (wl a + wl b)%nat.
  Proof. intros a b. induction a as [|x a IH]; [reflexivity|]. unfold wl, wcl in *. cbn. lia. Qed.
  Lemma wcl_app : forall a b, wcl (a ++ b) = (wcl a + wcl b)%nat.
  Proof. intros a b. induction a as [|x a IH]; [reflexivity|]. unfold wl, wcl in *. cbn. lia. Qed.
  Lemma wcl_rev : forall l, wcl (rev l) = wcl l.
  Proof. intros l. induction l as [|a l IH]; [reflexivity|]. cbn [rev]. rewrite wcl_app, IH. unfold wcl. cbn. lia. Qed.
  Lemma wc_node : forall n, wc n = (own n + wcl (children n))%nat.
  Proof. intros n. unfold wc. rewrite nodes_subnodes. cbn [flat_map]. rewrite wt_app. unfold subnodes. rewrite wcl_eq. reflexivity. Qed.
  Lemma wc_op : forall k op ch, wc (Op k op ch) = (own (Op k op ch) + wcl ch)%nat.
  Proof. intros. rewrite wc_node. reflexivity. Qed.
  Lemma wc_plain : forall k op ch, match k with KPrefix | KInfix => False | _ => True end -> wc (Op k op ch) = wcl ch.
  Proof. intros k op ch H. rewrite wc_op. destruct k; try contradiction; reflexivity. Qed.
  Lemma wc_err : forall e ch, wc (SynErr e ch) = wcl ch.
  Proof. intros. rewrite wc_node. reflexivity. Qed.
  Lemma wc_call : forall h m op ch, wc (Call (Aggregate h) m op ch) = (own (Call (Aggregate h) m op ch) + (wc h + wcl ch))%nat.
  Proof. intros. rewrite wc_node, children_call. rewrite wcl_app. cbn. lia. Qed.
  Lemma wc_tok : forall t, wc (Tok t) = 0%nat.  Proof. reflexivity. Qed.
  Lemma own_infix : forall op ch, op =? IOP_MessageName = false -> own (Op KInfix op ch) = 0%nat.
  Proof. intros op ch H. unfold own. cbn [report]. rewrite H. reflexivity. Qed.
  Lemma own_prefix : forall op ch, op =? PREOP_CodeParser_PrefixNot2 = false -> own (Op KPrefix op ch) = 0%nat.
  Proof. intros op ch H. unfold own. cbn [report]. rewrite H. destruct ch as [|? [|? [|? ?]]]; reflexivity. Qed.

  Lemma wa_acall : forall h l d, wa (ACall h l d) = (md d + (wa h + wl l))%nat.
  Proof. intros. unfold wa. cbn [ast_issues]. rewrite !wt_app, wl_eq. reflexivity. Qed.
  Lemma wa_missing : forall h l d, wa (ACallMissingCloser h l d) = (md d + (wa h + wl l))%nat.
  Proof. intros. unfold wa. cbn [ast_issues]. rewrite !wt_app, wl_eq. reflexivity. Qed.
  Lemma wa_syntax : forall e l d, wa (ASyntaxError e l d) = (md d + wl l)%nat.
  Proof. intros. unfold wa. cbn [ast_issues]. rewrite !wt_app, wl_eq. reflexivity. Qed.
  Lemma wa_abstract : forall e l d, wa (AAbstractSyntaxError e l d) = (md d + wl l)%nat.
  Proof. intros. unfold wa. cbn [ast_issues]. rewrite !wt_app, wl_eq. reflexivity. Qed.
  Lemma wa_group : forall k l d, wa (AGroupMissingCloser k l d) = (md d + wl l)%nat.
  Proof. intros. unfold wa. cbn [ast_issues]. rewrite !wt_app, wl_eq. reflexivity. Qed.
  Lemma wa_call : forall s l d, wa (call s l d) = (md d + wl l)%nat.
  Proof. intros. unfold call. rewrite wa_acall. reflexivity. Qed.
  Lemma wa_bang : forall a b d, wa (APrefixLinearSyntaxBang a b d) = (md d + (wa a + wa b))%nat.
  Proof. intros. unfold wa. cbn [ast_issues]. rewrite !wt_app. reflexivity. Qed.

  (** a call of the head for commas has no issues *)
  Definition is_comma (k : Z) (s : list Z) : bool := (k =? TK_Symbol) && zlist_eqb s (bytes_of_string "CodeParser`Comma").
  Definition nc (n : cst) (a : ast) : Prop :=
    match a with
    | ALeaf k s d => m_issues d = [] /\ (is_comma k s = true -> call_issue n = None)
    | ACall (ALeaf k s d') _ d => is_comma k s = true -> m_issues d = [] /\ m_issues d' = []
    | _ => True
    end.
  Definition ncl (a : ast) : Prop := match a with ACall (ALeaf k s d') _ d => is_comma k s = true -> m_issues d = [] /\ m_issues d' = [] | _ => True end.
  Lemma nc_ncl : forall n a, nc n a -> ncl a.  Proof. intros n a H. destruct a; try exact I. exact H. Qed.
  Lemma nc_acall : forall n m a l d, m_issues d = [] -> nc m a -> nc n (ACall a l d).  Proof. intros n m a l d H Ha. destruct a; try exact I. intros _. split; [exact H|apply Ha]. Qed.
  Lemma nc_call : forall n s l d, m_issues d = [] -> nc n (call s l d).  Proof. intros n s l d H _. split; [exact H|reflexivity]. Qed.
  Lemma wl_select : forall a, ncl a -> wl (selectChildren a) = wa a.
  Proof.
    intros a H. assert (D : wl [a] = wa a) by (cbn; lia). destruct a as [| |h l d| | | | | | | | | |]; try exact D. destruct h as [k s d0| | | | | | | | | | | |]; try exact D. cbn [selectChildren]. cbn in H. unfold is_comma in H.
    destruct (_ && _); [|exact D]. destruct (H eq_refl) as [H1 H2]. rewrite wa_acall. unfold md, wa at 1. cbn [ast_issues]. rewrite H1, H2. reflexivity.
  Qed.
  Lemma wl_selects : forall l, Forall ncl l -> wl (flat_map selectChildren l) = wl l.
  Proof. intros l H. induction H as [|a l Ha H IH]; [reflexivity|]. cbn [flat_map]. rewrite wl_app, IH, wl_select by exact Ha. reflexivity. Qed.

  Variable o : aopts.
  Definition P (n : cst) : Prop := good n /\ Forall (fun m => ~ hidden m) (nodes n).
  Lemma closed : forall m k, P m -> In k (nodes m) -> P k.
  Proof.
    intros m k (G & A) H. split; [eapply good_down; eauto|]. rewrite Forall_forall in *. intros x Hx. apply A. eapply nodes_trans; eauto.
  Qed.
  Variable rec : cst -> res ast.
  Definition kp (m : cst) (r : res ast) (n : nat) : Prop := forall a, r = Ok a -> wa a = n /\ nc m a.
  Hypothesis Hrec : forall m, P m -> kp m (rec m) (wc m).
  Hypothesis Hcomma : forall ch a, rec (Op KInfix IOP_CodeParser_Comma ch) = Ok a -> exists args s, a = call "CodeParser`Comma" args (from_src s).

  Lemma kids : forall k op ch, P (Op k op ch) -> Forall P ch.  Proof. exact (P_op P closed). Qed.
  Lemma in_P : forall (l : list cst) c, In c l -> Forall P l -> P c.  Proof. intros l c Hin H. rewrite Forall_forall in H. auto. Qed.
  Ltac split_ch := repeat match goal with H : Forall P (_ :: _) |- _ => apply Forall_cons_iff in H as [? H] end.
  Ltac opn H := repeat match type of H with
    | rbind _ _ = Ok _ => let x := fresh "x" in let E := fresh "E" in apply rbind_Ok in H as (x & E & H)
    end.
  Lemma fits_P : forall n, P n -> fits n.
  Proof. intros n ((F & _) & _). rewrite nodes_subnodes in F. inversion F. assumption. Qed.

  (** ** Lists *)
  Lemma k_list : forall l r, Forall P l -> mapr rec l = Ok r -> wl r = wcl l /\ Forall ncl r.
  Proof.
    intros l r H E. apply mapr_Ok in E. induction E as [|a b l r E F IH]; [split; [reflexivity|constructor]|]. split_ch. destruct (IH H) as [I1 I2]. destruct (Hrec a H0 b E) as [J1 J2]. split; [|constructor; [eapply nc_ncl; eauto|auto]]. unfold wl, wcl in *. cbn. lia.
  Qed.
  Lemma quirk_keeps : forall s n m, P n -> processInfixBinaryAtQuirk o n s = Ok m -> P m /\ wc m = wc n.
  Proof.
    intros s0 n m H E. unfold processInfixBinaryAtQuirk in E. assert (D : Ok n = Ok m -> P m /\ wc m = wc n) by (intros [= <-]; auto). destruct (q_infix_binary_at o) eqn:Q; cbn [negb] in E; [|exact (D E)].
    destruct n as [t|h b op2 body|e ch|k op2 ch|b ch src|x y src]; try exact (D E). destruct k; try exact (D E). destruct (Z.eqb_spec op2 BOP_CodeParser_BinaryAt) as [->|_]; [|exact (D E)].
    destruct ch as [|x [|y [|z [|? ?]]]]; try discriminate E. apply rbind_Ok in E as (is & Ei & E). destruct is; [|exact (D E)]. assert (E' : Ok z = Ok m) by (destruct y as [u| | | | |]; try discriminate E; destruct (t_kind u =? TK_At); [exact E|discriminate E]). injection E' as <-. pose proof (kids _ _ _ H) as Hc. split_ch. split; [assumption|].
    destruct x as [t| | | | |]; try discriminate Ei. pose proof (fits_P _ H) as F. assert (Y : exists u, y = Tok u) by (inversion F; subst; eauto). destruct Y as (u & ->). rewrite wc_op. unfold wcl. cbn [fold_right]. rewrite !wc_tok. cbn. lia.
  Qed.
  Lemma quirks_keep : forall s l m, Forall P l -> mapr (fun n => processInfixBinaryAtQuirk o n s) l = Ok m -> Forall P m /\ wcl m = wcl l.
  Proof. intros s l m H E. apply mapr_Ok in E. induction E as [|a b l m E F IH]; [split; [constructor|reflexivity]|]. split_ch. destruct (IH H) as [I1 I2]. destruct (quirk_keeps _ _ _ H0 E) as [J1 J2]. split; [constructor; auto|]. unfold wcl in *. cbn [fold_right]. rewrite I2, J2. reflexivity. Qed.

  (** ** Operands *)
  Definition nw (g : negated) : nat := match g with InfixTimesSeq l => wcl (evens l) | _ => 0%nat end.
  Definition ow (x : oper) : nat := match x with OCst n | OReciprocate n _ => wc n | ONegativeOne => 0%nat | ONegated g _ => nw g end.
  Definition ows (l : list oper) : nat := fold_right (fun x n => (ow x + n)%nat) 0%nat l.
  Lemma ows_app : forall a b, ows (a ++ b) = (ows a + ows b)%nat.
  Proof. intros a b. induction a as [|x a IH]; [reflexivity|]. unfold ows in *. cbn. lia. Qed.
  Lemma joined_weight : forall op ch, joined op ch -> wcl ch = wcl (evens ch).
  Proof.
    intros op ch J. induction J as [a t b prec E|a t l prec E J IH]; unfold wcl; cbn [fold_right evens]; fold wcl; rewrite (wc_tok t).
    - lia.
    - unfold wcl in IH. rewrite IH. lia.
  Qed.
  Lemma infix_own : forall op ch, P (Op KInfix op ch) -> wc (Op KInfix op ch) = (own (Op KInfix op ch) + wcl (evens ch))%nat.
  Proof. intros op ch H. rewrite wc_op. pose proof (fits_P _ H) as F. inversion F; subst. f_equal. eapply joined_weight; eassumption. Qed.
  Lemma infix_weight : forall op ch, P (Op KInfix op ch) -> op =? IOP_MessageName = false -> wc (Op KInfix op ch) = wcl (evens ch).
  Proof. intros op ch H E. rewrite infix_own by exact H. rewrite own_infix by exact E. reflexivity. Qed.
  Lemma paren_weight : forall x c y, P (Op KGroup GOP_CodeParser_GroupParen [x; c; y]) -> wc (Op KGroup GOP_CodeParser_GroupParen [x; c; y]) = wc c.
  Proof.
    intros x c y H. rewrite wc_op. pose proof (fits_P _ H) as F. destruct (group_ends _ _ F) as (t & mid & u & E & Ho & Hcl). injection E as -> E. destruct mid as [|c' [|c2 mid]]; [discriminate E| |destruct mid; discriminate E]. injection E as -> ->. unfold wcl. cbn [fold_right]. rewrite !wc_tok. cbn. lia.
  Qed.
  Lemma prefix_weight : forall op x c, P (Op KPrefix op [x; c]) -> op =? PREOP_CodeParser_PrefixNot2 = false -> wc (Op KPrefix op [x; c]) = wc c.
  Proof.
    intros op x c H E. rewrite wc_op, own_prefix by exact E. pose proof (fits_P _ H) as F. inversion F; subst. unfold wcl. cbn [fold_right]. rewrite wc_tok. lia.
  Qed.
  Lemma k_negate : forall n g, P n -> negate n = Ok g -> nw g = wc n.
  Proof.
    apply (cst_ind' (fun n => forall g, P n -> negate n = Ok g -> nw g = wc n)). intros n IH g H E. rewrite Forall_forall in IH.
    assert (D : Ok (InfixTimesSeq [n]) = Ok g -> nw g = wc n) by (intros [= <-]; cbn; lia).
    destruct n as [t|h b op body|e ch|k op ch|b ch src|x y src]; try exact (D E).
    - cbn [negate] in E. destruct (Z.eqb_spec (t_kind t) TK_Integer) as [K|_].
      + apply rbind_Ok in E as (s & _ & E). injection E as <-. destruct (zlist_eqb s [48]); reflexivity.
      + destruct (Z.eqb_spec (t_kind t) TK_Real) as [K|_]; [|exact (D E)]. injection E as <-. reflexivity.
    - pose proof (kids _ _ _ H) as Hc. destruct k; try exact (D E); cbn [negate] in E.
      + destruct (Z.eqb_spec op PREOP_Minus) as [->|_]; [|exact (D E)]. pose proof (fits_P _ H) as F. inversion F; subst. split_ch. apply rbind_Ok in E as (z & _ & E). destruct z; [|exact (D E)]. rewrite prefix_weight by (exact H || reflexivity). apply IH; auto. right. left. reflexivity.
      + destruct (Z.eqb_spec op IOP_Times) as [->|_]; [|exact (D E)]. injection E as <-. rewrite infix_weight by (exact H || reflexivity). reflexivity.
      + destruct (Z.eqb_spec op GOP_CodeParser_GroupParen) as [->|_]; [|exact (D E)]. destruct ch as [|x [|c r]]; try discriminate E. apply rbind_Ok in E as (z & Ez & E). split_ch. destruct z.
        * destruct r as [|y [|? ?]].
          -- pose proof (fits_P _ H) as F. destruct (group_ends _ _ F) as (t & mid & u & Et & Ho & Hcl). injection Et as -> Et. destruct mid as [|? mid]; [|destruct mid; discriminate Et]. injection Et as ->.
             exfalso. cbn [possiblyNegatedZeroQ] in Ez. pose proof (silent_closer _ _ Hcl) as Sc. destruct (Z.eqb_spec (t_kind u) TK_Integer) as [K|_]; [|discriminate Ez]. unfold silent, token_items in Sc. rewrite K in Sc. discriminate Sc.
          -- rewrite paren_weight by exact H. apply IH; auto. right. left. reflexivity.
          -- exfalso. destruct H as (_ & A). rewrite nodes_subnodes in A. apply Forall_cons_iff in A as [A _]. apply A. do 5 eexists. split; [reflexivity|]. apply zero_zeroish. exact Ez.
        * apply rbind_Ok in E as (q & _ & E). destruct q; [|exact (D E)]. destruct r as [|y [|? ?]]; try discriminate E. rewrite paren_weight by exact H. apply IH; auto. right. left. reflexivity.
  Qed.

  Lemma binary_weight : forall op x t y, P (Op KBinary op [x; t; y]) -> wc (Op KBinary op [x; t; y]) = (wc x + wc y)%nat.
  Proof.
    intros op x t y H. rewrite wc_op. pose proof (fits_P _ H) as F. pose proof (kids _ _ _ H) as Hc. inversion F; subst; split_ch; unfold wcl; cbn [fold_right]; rewrite wc_tok; cbn; lia.
  Qed.
  Definition safe (x : oper) : Prop := match x with OCst m | OReciprocate m _ => P m | ONegativeOne => True | ONegated g _ => number g end.
  Lemma k_flatten : forall data n l, P n -> flatten_times_cst o n data = Ok l -> ows l = wc n.
  Proof.
    intros data. apply (cst_ind' (fun n => forall l, P n -> flatten_times_cst o n data = Ok l -> ows l = wc n)). intros n IH l H E. rewrite Forall_forall in IH.
    assert (D : Ok [OCst n] = Ok l -> ows l = wc n) by (intros [= <-]; cbn; lia).
    destruct n as [t|h m op body|e ch|k op ch|b ch src|a b src]; try exact (D E). pose proof (kids _ _ _ H) as Hc. destruct k; try exact (D E); cbn [flatten_times_cst] in E.
    - destruct (Z.eqb_spec op PREOP_Minus) as [->|_]; [|exact (D E)]. destruct ch as [|t [|c [|? ?]]]; try discriminate E. split_ch. apply rbind_Ok in E as (q & _ & E). rewrite prefix_weight by first [exact H|assumption|reflexivity]. destruct q.
      + apply rbind_Ok in E as (g & Eg & E). injection E as <-. pose proof (k_negate _ _ H1 Eg). cbn. lia.
      + destruct (q_flatten_times o); [|rewrite (D E); apply prefix_weight; first [exact H|reflexivity]]. apply rbind_Ok in E as (r & Er & E). injection E as <-. pose proof (IH c (or_intror (or_introl eq_refl)) r H1 Er). unfold ows in *. cbn. lia.
    - destruct (Z.eqb_spec op IOP_Times) as [->|_]; [|exact (D E)]. destruct (a_dbg o && _); [discriminate E|]. rewrite flatten_infix in E. apply rbind_Ok in E as (ls & E & X). injection X as <-. apply mapr_Ok in E. rewrite infix_weight by first [exact H|assumption|reflexivity].
      assert (Hi : forall c, In c (evens ch) -> forall l, flatten_times_cst o c data = Ok l -> ows l = wc c).
      { intros c Hin r Er. apply evens_in in Hin. apply (IH c Hin r); [eapply in_P; eauto|exact Er]. }
      clear - E Hi. induction E as [|c b cs bs E F IHF]; [reflexivity|]. cbn [concat]. rewrite ows_app, IHF by (intros; eapply Hi; [right|]; eauto). rewrite (Hi c (or_introl eq_refl) b E). reflexivity.
    - destruct (op =? BOP_Divide); [|exact (D E)]. destruct (q_flatten_times o); [|exact (D E)]. destruct ch as [|x [|t [|y [|? ?]]]]; try discriminate E. split_ch. apply rbind_Ok in E as (r & Er & E). injection E as <-.
      rewrite binary_weight by exact H. rewrite ows_app. rewrite (IH x (or_introl eq_refl) r H0 Er). cbn. lia.
  Qed.
  Lemma flatten_safe : forall data n l, P n -> flatten_times_cst o n data = Ok l -> Forall safe l.
  Proof. intros data n l H E. eapply Forall_impl; [|eapply flatten_times_numbers; exact E]. intros x Hx. destruct x; cbn in *; auto; eapply closed; eauto. Qed.
  Lemma k_number : forall g data a, number g -> negated_number g data = Ok a -> wa a = nw g.
  Proof.
    intros g data a N E. destruct g as [|t|t|l]; [injection E as <-|cbn in E; apply rbind_Ok in E as (s & _ & E); injection E as <-|cbn in E; apply rbind_Ok in E as (s & _ & E); injection E as <-|contradiction]; reflexivity.
  Qed.
  Lemma k_operand : forall f x a, (forall n, P n -> forall b, f n = Ok b -> wa b = wc n) -> safe x -> operand_into_ast rec f x = Ok a -> wa a = ow x.
  Proof.
    intros f x a Hf S E. destruct x as [n|n data| |g data]; cbn [operand_into_ast] in E.
    - apply (Hf n S a E).
    - unfold reciprocate_into_ast in E. apply rbind_Ok in E as (b & Eb & E). injection E as <-. destruct (Hrec n S b Eb) as [W _]. rewrite wa_call, ?md_src, ?md_none, ?Nat.add_0_l. unfold wl. cbn [fold_right]. rewrite W. cbn. lia.
    - injection E as <-. reflexivity.
    - eapply k_number; eauto.
  Qed.
  Lemma k_operands : forall f l args, (forall n, P n -> forall b, f n = Ok b -> wa b = wc n) -> Forall safe l -> mapr (operand_into_ast rec f) l = Ok args -> wl args = ows l.
  Proof.
    intros f l args Hf S E. apply mapr_Ok in E. induction E as [|x a l args E F IH]; [reflexivity|]. apply Forall_cons_iff in S as [S1 S2]. specialize (IH S2). pose proof (k_operand f x a Hf S1 E). unfold wl, ows in *. cbn. lia.
  Qed.
  Lemma k_times_seq : forall l data a, Forall P l -> abstractTimes_InfixNode o rec l data = Ok a -> exists args, a = call "System`Times" args (from_src data) /\ wl args = wcl l.
  Proof.
    intros l data a H E. unfold abstractTimes_InfixNode in E. apply rbind_Ok in E as (fl & Ef & E). apply rbind_Ok in E as (args & Ea & E). injection E as <-. exists args. split; [reflexivity|].
    unfold flattenTimes in Ef. apply rbind_Ok in Ef as (ls & Ef & X). injection X as <-. apply mapr_Ok in Ef.
    assert (S : Forall safe (concat ls) /\ ows (concat ls) = wcl l).
    { clear - Ef H Hrec. induction Ef as [|c b cs bs E F IH]; [split; [constructor|reflexivity]|]. apply Forall_cons_iff in H as [H1 H2]. destruct (IH H2) as [I1 I2]. split; [apply Forall_app; split; [eapply flatten_safe; eauto|exact I1]|].
      cbn [concat]. rewrite ows_app, I2, (k_flatten _ _ _ H1 E). reflexivity. }
    destruct S as [S1 S2]. rewrite <- S2. eapply k_operands; [|exact S1|exact Ea]. intros n Hn b Eb. apply rbind_Ok in Eb as (m & Em & Eb). destruct (quirk_keeps _ _ _ Hn Em) as [Pm Wm]. rewrite <- Wm. exact (proj1 (Hrec m Pm b Eb)).
  Qed.
  Lemma k_negated : forall m g data, match g with InfixTimesSeq l => Forall P l | _ => True end -> kp m (negated_into_ast o rec g data) (nw g).
  Proof.
    intros m g data H a E. assert (N : number g -> negated_number g data = Ok a -> wa a = nw g /\ nc m a).
    { intros N En. split; [eapply k_number; eauto|]. destruct g as [|t|t|l]; cbn in En; try contradiction; [injection En as <-|apply rbind_Ok in En as (s & _ & En); injection En as <-|apply rbind_Ok in En as (s & _ & En); injection En as <-]; (split; [reflexivity|]); intros X; discriminate X. }
    destruct g as [|t|t|l]; try (apply N; [exact I|exact E]). cbn [negated_into_ast] in E. apply rbind_Ok in E as (ch & Ec & E). apply span_even in Ec. subst ch. apply rbind_Ok in E as (b & Eb & E).
    apply k_times_seq in Eb; [|apply P_evens; exact H]. destruct Eb as (args & -> & W). cbn [call] in E. injection E as <-. split; [|intros X; discriminate X]. rewrite wa_acall, ?md_src, ?md_none, ?Nat.add_0_l. cbn [nw]. rewrite <- W. reflexivity.
  Qed.
  Lemma k_negated_of : forall m n g data, P n -> negate n = Ok g -> kp m (negated_into_ast o rec g data) (wc n).
  Proof. intros m n g data H E. rewrite <- (k_negate _ _ H E). apply k_negated. destruct g; auto. eapply negate_seq; [exact closed|exact E|exact H]. Qed.
  Lemma k_flatten_plus : forall n m, P n -> flattenPrefixPlus n = Ok m -> wc m = wc n.
  Proof.
    apply (cst_ind' (fun n => forall m, P n -> flattenPrefixPlus n = Ok m -> wc m = wc n)). intros n IH m H E. rewrite Forall_forall in IH. assert (D : Ok n = Ok m -> wc m = wc n) by (intros [= <-]; reflexivity).
    destruct n as [t|h b op body|e ch|k op ch|b ch src|a b src]; try exact (D E). destruct k; try exact (D E). cbn [flattenPrefixPlus] in E. destruct (Z.eqb_spec op PREOP_Plus) as [->|_]; [|exact (D E)]. destruct ch as [|t [|c [|? ?]]]; try discriminate E.
    pose proof (kids _ _ _ H) as Hc. split_ch. rewrite prefix_weight by first [exact H|assumption|reflexivity]. apply (IH c); auto. right. left. reflexivity.
  Qed.
  Lemma k_prefix_plus : forall m data n, P n -> kp m (abstractPrefixPlus rec n data) (wc n).
  Proof.
    intros m data. apply (cst_ind' (fun n => P n -> kp m (abstractPrefixPlus rec n data) (wc n))). intros n IH H. rewrite Forall_forall in IH.
    assert (D : kp m (rbind (rec n) (fun a => Ok (call "System`Plus" [a] (from_src data)))) (wc n)).
    { intros a E. apply rbind_Ok in E as (b & Eb & E). injection E as <-. destruct (Hrec n H b Eb) as [W _]. split; [|apply nc_call; reflexivity]. rewrite wa_call, ?md_src, ?md_none, ?Nat.add_0_l. unfold wl. cbn [fold_right]. lia. }
    destruct n as [t|h b op body|e ch|k op ch|b ch src|a b src]; try exact D. destruct k; try exact D. cbn [abstractPrefixPlus]. destruct (Z.eqb_spec op PREOP_Plus) as [->|_]; [|exact D]. destruct ch as [|t [|c [|? ?]]]; try (intros a E; discriminate E).
    pose proof (kids _ _ _ H) as Hc. split_ch. rewrite prefix_weight by first [exact H|assumption|reflexivity]. apply (IH c); auto. right. left. reflexivity.
  Qed.
  Lemma k_pair : forall t y x, P y -> processPlusPair t y = Ok x -> ow x = wc y /\ match x with OCst n => P n | ONegated g _ => match g with InfixTimesSeq l => Forall P l | _ => True end | _ => False end.
  Proof.
    intros t y x H E. unfold processPlusPair in E. destruct t as [t| | | | |]; try discriminate E. destruct (zin _ _); [injection E as <-; split; [reflexivity|exact H]|]. destruct (zin _ _); [|discriminate E].
    apply rbind_Ok in E as (s & _ & E). apply rbind_Ok in E as (s2 & _ & E). apply rbind_Ok in E as (g & Eg & E). injection E as <-. split; [exact (k_negate _ _ H Eg)|]. destruct g; auto. eapply negate_seq; [exact closed|exact Eg|exact H].
  Qed.
  Lemma k_plus : forall m ch data, P (Op KInfix IOP_Plus ch) -> kp m (abstractPlus o rec ch data) (wc (Op KInfix IOP_Plus ch)).
  Proof.
    intros m0 ch data H a E. pose proof (kids _ _ _ H) as Hc. rewrite infix_weight by first [exact H|assumption|reflexivity]. unfold abstractPlus in E. destruct ch as [|first r]; [discriminate E|]. apply rbind_Ok in E as (ps & Ep & E). apply rbind_Ok in E as (xs & Ex & E). apply rbind_Ok in E as (args & Ea & E).
    injection E as <-. split; [|apply nc_call; reflexivity]. rewrite wa_call, ?md_src, ?md_none, ?Nat.add_0_l. apply mapr_Ok in Ex. apply mapr_Ok in Ea.
    assert (W : forall n, P n -> forall b, rbind (processInfixBinaryAtQuirk o n (bytes_of_string "Plus")) (fun m => rbind (flattenPrefixPlus m) (fun m => rec m)) = Ok b -> wa b = wc n).
    { intros n Hn b Eb. apply rbind_Ok in Eb as (m & Em & Eb). destruct (quirk_keeps _ _ _ Hn Em) as [Pm Wm]. rewrite <- Wm. apply rbind_Ok in Eb as (m2 & Em2 & Eb). rewrite <- (k_flatten_plus _ _ Pm Em2). apply (Hrec m2); [|exact Eb]. eapply closed; [exact Pm|]. eapply flatten_plus_in; eauto. }
    inversion Ea as [|x0 a0 xs0 as0 E0 F0]; subst. split_ch. unfold wl. cbn [fold_right]. rewrite (W first H0 a0 E0).
    assert (V : evens (first :: r) = first :: map snd ps).
    { clear - Ep. revert ps Ep. destruct r as [|b r]; [intros ps [= <-]; reflexivity|]. revert b first. induction r as [|y|y z r IH] using pair_ind; intros b first ps E; cbn -[rbind] in E.
      - discriminate E.
      - injection E as <-. reflexivity.
      - apply rbind_Ok in E as (ps' & E & X). injection X as <-. cbn [evens map snd]. f_equal. apply (IH z y). exact E. }
    rewrite V. unfold wcl. cbn [fold_right]. f_equal. fold (wl as0). fold (wcl (map snd ps)).
    assert (Py : forall p, In p ps -> P (snd p)). { intros [x y] Hin. destruct (chunks_in _ _ _ _ _ Ep Hin) as [_ Hy]. cbn. eapply in_P; eauto. }
    clear - Ex F0 Py W Hrec. revert as0 F0. induction Ex as [|[x y] z ps xs E F IH]; intros as0 F0; inversion F0 as [|z0 a1 ? as1 E1 F1]; subst; [reflexivity|].
    destruct (k_pair _ _ _ (Py _ (or_introl eq_refl)) E) as [K1 K2]. cbn [map wl wcl fold_right snd] in *. fold (wl as1). fold (wcl (map snd ps)). rewrite (IH (fun p Hp => Py p (or_intror Hp)) as1 F1). f_equal.
    destruct z as [n| | |g dd]; try contradiction; [rewrite (W n K2 _ E1); exact K1|]. rewrite <- K1. exact (proj1 (k_negated x g dd K2 _ E1)).
  Qed.
  Lemma k_derivative : forall n z a, P n -> derivativeOrderAndAbstractedBody rec n = Ok (z, a) -> wa a = wc n.
  Proof.
    apply (cst_ind' (fun n => forall z a, P n -> derivativeOrderAndAbstractedBody rec n = Ok (z, a) -> wa a = wc n)). intros n IH z a H E. rewrite Forall_forall in IH.
    assert (D : rbind (rec n) (fun a => Ok (0, a)) = Ok (z, a) -> wa a = wc n).
    { intros E'. apply rbind_Ok in E' as (b & Eb & E'). injection E' as <- <-. apply (Hrec n H b Eb). }
    destruct n as [t|h b op body|e ch|k op ch|b ch src|x y src]; try exact (D E). destruct k; try exact (D E). cbn [derivativeOrderAndAbstractedBody] in E. destruct (op =? _); [|exact (D E)]. destruct ch as [|c [|t [|? ?]]]; try discriminate E.
    apply rbind_Ok in E as ([z' b] & Eb & E). injection E as <- <-. pose proof (kids _ _ _ H) as Hc. pose proof (fits_P _ H) as F. inversion F; subst. split_ch. rewrite wc_op. unfold wcl. cbn [fold_right]. rewrite (wc_tok t0), (IH c (or_introl eq_refl) _ _ H0 Eb). cbn. lia.
  Qed.

  (** ** Tokens *)
  Lemma Ok_inj : forall A (x y : A), Ok x = Ok y -> x = y.  Proof. intros A x y [= E]. exact E. Qed.
  Lemma nc_leaf : forall n k s d, m_issues d = [] -> (k = TK_Symbol -> s = bytes_of_string "CodeParser`Comma" -> call_issue n = None) -> nc n (ALeaf k s d).
  Proof. intros n k s d M H. split; [exact M|]. intros C. unfold is_comma in C. apply andb_true_iff in C as [C1 C2]. apply Z.eqb_eq in C1. apply zlist_eqb_eq in C2. exact (H C1 C2). Qed.
  Lemma symbol_head : forall t, t_kind t = TK_Symbol -> call_issue (Tok t) = None.  Proof. intros t K. unfold call_issue. cbn. rewrite K. reflexivity. Qed.
  Lemma k_token : forall t, kp (Tok t) (abstract_replace_token t) (wc (Tok t)).
  Proof.
    intros t a E. unfold abstract_replace_token in E. cbv zeta in E. rewrite wc_tok.
    do 10 (match type of E with (if ?k =? ?c then _ else _) = _ => destruct (Z.eqb_spec k c) as [?K|_];
      [try (apply rbind_Ok in E as (s & _ & E)); injection E as <-; split; [reflexivity|]; first [apply nc_call; reflexivity|apply nc_leaf; [reflexivity|first [intros X; discriminate X|intros _ X; discriminate X]]]|] end).
    destruct (zin _ _); [injection E as <-; split; [reflexivity|]; apply nc_leaf; [reflexivity|intros _ X; discriminate X]|].
    destruct (isError _); [injection E as <-; split; [reflexivity|exact I]|].
    destruct (Z.eqb_spec (t_kind t) TK_Symbol) as [K|N]; [apply rbind_Ok in E as (s & _ & E)|].
    - pose proof (symbol_head t K) as Y. destruct (find_spelling _ _); apply Ok_inj in E; subst a; (split; [reflexivity|]); apply nc_leaf; auto.
    - injection E as <-. split; [reflexivity|]. apply nc_leaf; [reflexivity|]. intros X. contradiction.
  Qed.

  (** ** Nodes *)
  Ltac use := repeat match goal with E : rec ?m = Ok ?a |- _ => let W := fresh "W" in let N := fresh "N" in destruct (Hrec m ltac:(assumption) a E) as [W N]; clear E end.
  Ltac sums := repeat (progress (rewrite ?wa_call, ?wa_acall, ?wa_abstract, ?wa_syntax, ?wa_missing, ?wa_group, ?wa_bang, ?md_src, ?md_none, ?wc_tok; unfold wl, wcl in *; cbn [fold_right app] in * )); rewrite ?wc_tok in *; try lia.
  Ltac nct := solve [apply nc_call; reflexivity | exact I | eapply nc_acall; [reflexivity|first [eassumption | exact I | apply (nc_call (Tok (mktok 0 [] [] 0))); reflexivity]] | assumption].
  Ltac fin := use; split; [sums|nct].

  Lemma w_simplify : forall first r aff data, wa (simplifyInfixInequality first r aff data) = (wa first + wl (map snd r))%nat /\ forall m, nc m (simplifyInfixInequality first r aff data).
  Proof.
    intros first r aff data. unfold simplifyInfixInequality. cbv zeta. destruct (find _ SIMPLE_CHAINS); [split; [rewrite wa_call, ?md_src, ?md_none, ?Nat.add_0_l; reflexivity|intros m; apply nc_call; reflexivity]|]. destruct (find _ VECTOR_CHAINS).
    { split; [|intros m; apply nc_call; reflexivity]. rewrite wa_call, ?md_src, ?md_none, ?Nat.add_0_l. unfold wl at 1. cbn [fold_right]. rewrite wa_call, ?md_src, ?md_none, ?Nat.add_0_l. unfold wl. cbn [fold_right]. lia. }
    assert (X : wl (flat_map (fun '(s, a) => [symbol_leaf s no_meta; a]) r) = wl (map snd r)).
    { induction r as [|[s a] r IH]; [reflexivity|]. unfold wl in *. cbn [flat_map app fold_right map snd]. rewrite IH. reflexivity. }
    destruct aff as [[|]|]; (split; [|intros m; apply nc_call; reflexivity]); rewrite wa_call, ?md_src, ?md_none, ?Nat.add_0_l; unfold wl in *; cbn [fold_right]; rewrite X; reflexivity.
  Qed.
  Lemma k_inequality_loop : forall data pairs first r aff a, Forall (fun p => P (snd p)) pairs -> inequality_loop rec pairs first r aff data = Ok a ->
    wa a = (wa first + wl (map snd r) + wcl (map snd pairs))%nat /\ forall m, nc m a.
  Proof.
    intros data pairs. induction pairs as [|[t y] pairs IH]; intros first r aff a H E; cbn [inequality_loop] in E.
    - apply Ok_inj in E. subst a. destruct (w_simplify first r aff data) as [S1 S2]. split; [|exact S2]. rewrite S1. unfold wcl. cbn. lia.
    - apply Forall_cons_iff in H as [H1 H2]. cbn [snd] in H1. apply rbind_Ok in E as (s & _ & E). apply rbind_Ok in E as (b & Eb & E). apply rbind_Ok in E as (v & _ & E). destruct (Hrec y H1 b Eb) as [W _].
      assert (M : forall f' r', (wa f' + wl (map snd r') = wa first + wl (map snd r) + wa b)%nat -> forall aff', inequality_loop rec pairs f' r' aff' data = Ok a -> wa a = (wa first + wl (map snd r) + wcl (map snd ((t, y) :: pairs)))%nat /\ forall m, nc m a).
      { intros f' r' Q aff' E'. destruct (IH _ _ _ _ H2 E') as [I1 I2]. split; [|exact I2]. rewrite I1, Q. unfold wcl. cbn [map snd fold_right]. lia. }
      assert (A : forall q : list (string * ast), wl (map snd (q ++ [(s, b)])) = (wl (map snd q) + wa b)%nat). { intros q. rewrite map_app, wl_app. unfold wl. cbn [map snd fold_right]. lia. }
      destruct v as [v|]; [|eapply M; [|exact E]; rewrite A; lia]. destruct (match aff with Some _ => _ | None => _ end); [|eapply M; [|exact E]; rewrite A; lia].
      eapply M; [|exact E]. rewrite (proj1 (w_simplify first r aff data)). unfold wl. cbn [map snd fold_right]. lia.
  Qed.
  Lemma k_inequality : forall m ch data, Forall P ch -> kp m (abstractInfixInequality rec ch data) (wcl (evens ch)).
  Proof.
    intros m ch data H a E. unfold abstractInfixInequality in E. destruct ch as [|first r]; [discriminate E|]. apply rbind_Ok in E as (b & Eb & E). apply rbind_Ok in E as (ps & Ep & E). apply rbind_Ok in E as (qs & Eq & E). rewrite (evens_chunks _ _ _ Ep).
    apply mapr_Ok in Eq. assert (Q : map snd qs = map snd ps). { clear - Eq. induction Eq as [|[x y] [t z] ps qs E F IH]; [reflexivity|]. destruct x; try discriminate E. injection E as -> ->. cbn. f_equal. exact IH. }
    split_ch. destruct (Hrec first H0 b Eb) as [W _]. apply k_inequality_loop in E.
    - rewrite Q in E. destruct E as [E1 E2]. split; [|apply E2]. rewrite E1, W. unfold wcl, wl. cbn. lia.
    - rewrite Forall_forall. intros p Hp. assert (Hs : In (snd p) (map snd qs)) by (apply in_map; exact Hp). rewrite Q in Hs. apply in_map_iff in Hs as ([x y] & Es & Hin). destruct (chunks_in _ _ _ _ _ Ep Hin) as [_ Hy]. rewrite <- Es. cbn. eapply in_P; eauto.
  Qed.
  Lemma k_tilde_rest : forall r lhs data a, m_issues data = [] -> Forall P r -> abstractInfixTilde_rest rec lhs r data = Ok a -> wa a = (wa lhs + wcl r)%nat /\ forall n, nc n a.
  Proof.
    intros r. induction r as [|m|m x r IH] using pair_ind; intros lhs data a D H E; assert (D0 : md data = 0%nat) by (unfold md; rewrite D; reflexivity); cbn -[rbind] in E; [discriminate E| |]; split_ch.
    - apply rbind_Ok in E as (b & Eb & E). injection E as <-. use. split; [sums|intros n; first [exact I|eapply nc_acall; [exact D|eassumption]]].
    - destruct r as [|y r].
      + apply rbind_Ok in E as (b & Eb & E). apply rbind_Ok in E as (c & Ec & E). injection E as <-. use. split; [sums|intros n; first [exact I|eapply nc_acall; [exact D|eassumption]]].
      + apply rbind_Ok in E as (b & Eb & E). apply rbind_Ok in E as (c & Ec & E). apply IH in E; [|exact D|exact H]. destruct E as [E1 E2]. split; [|exact E2]. use. rewrite E1. sums.
  Qed.
  Lemma k_tilde : forall n l data, m_issues data = [] -> Forall P l -> kp n (abstractInfixTilde rec l data) (wcl l).
  Proof.
    intros n l data D H a E. assert (D0 : md data = 0%nat) by (unfold md; rewrite D; reflexivity). destruct l as [|x [|y [|z [|v r]]]]; try discriminate E; split_ch; unfold abstractInfixTilde in E.
    - apply rbind_Ok in E as (b & Eb & E). apply rbind_Ok in E as (c & Ec & E). injection E as <-. fin.
    - apply rbind_Ok in E as (b & Eb & E). apply k_tilde_rest in E; [|exact D|auto]. destruct E as [E1 E2]. split; [|apply E2]. use. rewrite E1. sums.
    - apply rbind_Ok in E as (b & Eb & E). apply rbind_Ok in E as (c & Ec & E). apply k_tilde_rest in E; [|exact D|auto]. apply k_tilde_rest in Ec; [|reflexivity|auto]. destruct E as [E1 E2]. destruct Ec as [C1 _]. split; [|apply E2]. use. rewrite E1, C1. sums.
  Qed.
  Lemma k_selected : forall l r, Forall P l -> mapr rec l = Ok r -> wl (flat_map selectChildren r) = wcl l.
  Proof. intros l r H E. destruct (k_list _ _ H E) as [W N]. rewrite wl_selects by exact N. exact W. Qed.
  Lemma ends_weight : forall t mid u, wcl (Tok t :: mid ++ [Tok u]) = wcl mid.
  Proof. intros t mid u. pose proof (wcl_app mid [Tok u]) as A. unfold wcl in *. cbn [fold_right] in *. rewrite A, !wc_tok. cbn. lia. Qed.
  Lemma mid_P : forall t mid u, Forall P (Tok t :: mid ++ [Tok u]) -> P (Tok t) /\ Forall P mid.
  Proof. intros t mid u H. apply Forall_cons_iff in H as [H1 H2]. apply Forall_app in H2 as [H2 _]. auto. Qed.
  Lemma k_group_args : forall op t mid u l, opens op t -> closes t u -> Forall P (Tok t :: mid ++ [Tok u]) -> abstractGroupNode rec (Tok t :: mid ++ [Tok u]) = Ok l -> wl l = wcl (Tok t :: mid ++ [Tok u]).
  Proof.
    intros op t mid u l Ho Hc H E. destruct (mid_P _ _ _ H) as [H1 H2]. rewrite ends_weight. unfold abstractGroupNode in E. apply rbind_Ok in E as (r & Er & E). apply dropped in Er. subst r.
    apply rbind_Ok in E as (q & Eq & E). injection E as <-. apply k_selected; auto.
  Qed.
  Lemma k_missing_args : forall op t mid l, opens op t -> Forall P (Tok t :: mid) -> abstractGroupMissingCloser rec (Tok t :: mid) = Ok l -> wl l = wcl (Tok t :: mid).
  Proof.
    intros op t mid l Ho H E. split_ch. unfold wcl. cbn [fold_right]. rewrite (wc_tok t). unfold abstractGroupMissingCloser in E. apply rbind_Ok in E as (q & Eq & E). injection E as <-. apply k_selected; auto.
  Qed.
  Lemma comma_weight : forall cs, P (Op KInfix IOP_CodeParser_Comma cs) -> forall r l, part_span_even_children o None cs = Ok r -> mapr rec r = Ok l -> wl l = wc (Op KInfix IOP_CodeParser_Comma cs).
  Proof.
    intros cs H r l E El. apply span_even in E. subst r. rewrite infix_weight by first [exact H|assumption|reflexivity]. apply k_list in El; [|apply P_evens; eapply kids; eauto]. apply El.
  Qed.
  Lemma k_paren : forall n op t mid u data, call_issue n = None -> opens op t -> closes t u -> Forall P (Tok t :: mid ++ [Tok u]) -> kp n (abstract_paren o rec (Tok t :: mid ++ [Tok u]) data) (wcl (Tok t :: mid ++ [Tok u])).
  Proof.
    intros n op t mid u data Hn Ho Hc H a E. destruct (mid_P _ _ _ H) as [H1 H2]. rewrite ends_weight.
    assert (D : rbind (part_span_drop_first_and_last (Tok t :: mid ++ [Tok u])) (fun cs => rbind (mapr rec cs) (fun l => Ok (AAbstractSyntaxError OpenParen l (from_src data)))) = Ok a -> wa a = wcl mid /\ nc n a).
    { intros E'. apply rbind_Ok in E' as (r & Er & E'). apply dropped in Er. subst r. apply rbind_Ok in E' as (q & Eq & E'). injection E' as <-. split; [|exact I]. rewrite wa_abstract, ?md_src, ?md_none, ?Nat.add_0_l. apply (k_list _ _ H2 Eq). }
    destruct mid as [|c [|d mid]].
    - exact (D E).
    - cbn [app] in E. unfold abstract_paren in E. split_ch. assert (R : rec c = Ok a -> wa a = wcl [c] /\ nc n a). { intros Ec. use. split; [sums|]. destruct a; try exact I; try assumption. destruct N as [N1 _]. split; auto. } destruct c as [x|h m cop body|e ch|k cop ch|b ch src|x y src]; try exact (R E). destruct k; try exact (R E).
      destruct (Z.eqb_spec cop IOP_CodeParser_Comma) as [->|_]; [|exact (R E)]. apply rbind_Ok in E as (r & Er & E). apply rbind_Ok in E as (l & El & E). injection E as <-. split; [|exact I]. rewrite wa_abstract, ?md_src, ?md_none, ?Nat.add_0_l. rewrite (comma_weight _ H0 _ _ Er El). unfold wcl. cbn. lia.
    - destruct mid; exact (D E).
  Qed.
  Lemma k_naked : forall n e op t mid u data, opens op t -> closes t u -> Forall P (Tok t :: mid ++ [Tok u]) -> kp n (abstract_naked o rec e (Tok t :: mid ++ [Tok u]) data) (wcl (Tok t :: mid ++ [Tok u])).
  Proof.
    intros n e op t mid u data Ho Hc H a E. destruct (mid_P _ _ _ H) as [H1 H2]. rewrite ends_weight.
    destruct mid as [|c [|d mid]].
    - injection E as <-. split; [reflexivity|exact I].
    - cbn [app] in E. unfold abstract_naked in E. split_ch. assert (R : rbind (rec c) (fun a => Ok (AAbstractSyntaxError e [a] (from_src data))) = Ok a -> wa a = wcl [c] /\ nc n a). { intros Ec. apply rbind_Ok in Ec as (b & Eb & Ec). injection Ec as <-. fin. }
      destruct c as [x|h m cop body|e2 ch|k cop ch|b ch src|x y src]; try exact (R E). destruct k; try exact (R E).
      destruct (Z.eqb_spec cop IOP_CodeParser_Comma) as [->|_]; [|exact (R E)]. apply rbind_Ok in E as (r & Er & E). apply rbind_Ok in E as (l & El & E). injection E as <-. split; [|exact I]. rewrite wa_abstract, ?md_src, ?md_none, ?Nat.add_0_l. rewrite (comma_weight _ H0 _ _ Er El). unfold wcl. cbn. lia.
    - exfalso. destruct mid; discriminate E.
  Qed.
  Lemma k_group : forall op ch data, P (Op KGroup op ch) -> kp (Op KGroup op ch) (abstract_group o rec op ch data) (wc (Op KGroup op ch)).
  Proof.
    intros op ch data H. rewrite wc_plain by exact I. pose proof (kids _ _ _ H) as Hc. destruct (group_ends _ _ (fits_P _ H)) as (t & mid & u & -> & Ho & Hcl). unfold abstract_group.
    destruct (Z.eqb_spec op GOP_CodeParser_GroupParen) as [->|_]; [eapply k_paren; eauto|]. destruct (op =? _); [eapply k_naked; eauto|]. destruct (op =? _); [eapply k_naked; eauto|]. destruct (op =? _); [eapply k_naked; eauto|].
    intros a E. apply rbind_Ok in E as (l & El & E). injection E as <-. split; [|apply nc_call; reflexivity]. rewrite wa_call, ?md_src, ?md_none, ?Nat.add_0_l. eapply k_group_args; eauto.
  Qed.

  Lemma k_call : forall h missing op ch data, P (Call h missing op ch) -> kp (Call h missing op ch) (abstract_call_node rec h missing op ch data) (wc (Call h missing op ch)).
  Proof.
    intros h missing op ch data H a E. pose proof (fits_P _ H) as F. pose proof (P_children P closed _ H) as Hc.
    assert (X : exists hd, h = Aggregate hd /\ P hd /\ Forall P ch). { inversion F; subst; eexists; (split; [reflexivity|]); rewrite children_call in Hc; cbn [app] in Hc; apply Forall_cons_iff in Hc as [? ?]; auto. }
    destruct X as (hd & -> & Hh & Hch). rewrite wc_call. cbn [abstract_call_node] in E. inversion F as [| | | | | | | | | | | |? gop ? t mid u Et Ho Hcl|? gop ? t mid Et Ho|]; subst.
    - assert (G : forall l, abstractGroupNode rec (Tok t :: mid ++ [Tok u]) = Ok l -> wl l = wcl (Tok t :: mid ++ [Tok u])) by (intros l El; eapply k_group_args; eauto).
      unfold own. cbn [report]. destruct (op =? CALLOP_CodeParser_GroupSquare).
      + assert (N : rbind (issue_between (call_issue hd) (Tok t :: mid ++ [Tok u])) (fun issues => rbind (rec hd) (fun a => rbind (abstractGroupNode rec (Tok t :: mid ++ [Tok u])) (fun l => Ok (ACall a l (mk_ameta (Known data) issues))))) = Ok a ->
          wa a = (wt (between_ (call_issue hd) (Tok t :: mid ++ [Tok u])) + (wc hd + wcl (Tok t :: mid ++ [Tok u])))%nat /\ nc (Call (Aggregate hd) false op (Tok t :: mid ++ [Tok u])) a).
        { intros E'. apply rbind_Ok in E' as (is & Ei & E'). apply rbind_Ok in E' as (b & Eb & E'). apply rbind_Ok in E' as (l & El & E'). injection E' as <-. apply issue_between_eq in Ei. subst is. use. split; [rewrite wa_acall, md_mk, W, (G l El); reflexivity|].
          destruct b; try exact I. intros C. destruct N as [N1 N2]. split; [|exact N1]. cbn [m_issues]. rewrite (N2 C). reflexivity. }
        destruct mid as [|inner mid]; [exact (N E)|]. destruct inner as [x|h2 m2 op2 body|e ch|k gop2 ch2|bb ch src|x y src]; try exact (N E). destruct k; try exact (N E). cbn [app twice] in E, N |- *. destruct (Z.eqb_spec gop2 GOP_CodeParser_GroupSquare) as [->|_]; [|exact (N E)].
        destruct mid as [|m2 mid]; [|destruct mid; discriminate E]. cbn [app] in E |- *. apply rbind_Ok in E as (is & Ei & E). apply rbind_Ok in E as (b & Eb & E). apply rbind_Ok in E as (l & El & E). injection E as <-. apply issue_between_eq in Ei. subst is. use. split; [|intros X; discriminate X]. rewrite wa_call, md_mk. f_equal.
        cbn [app] in Hch. split_ch. destruct (group_ends _ _ (fits_P _ H1)) as (t2 & mid2 & u2 & -> & Ho2 & Hc2). apply (k_group_args _ _ _ _ _ Ho2 Hc2 (kids _ _ _ H1)) in El. unfold wl at 1. cbn [fold_right]. fold (wl l). rewrite W, El. rewrite <- wc_plain with (k := KGroup) (op := GOP_CodeParser_GroupSquare) by exact I.
        unfold wcl. cbn [fold_right app]. rewrite !wc_tok. lia.
      + destruct (op =? CALLOP_CodeParser_GroupTypeSpecifier).
        * apply rbind_Ok in E as (s & Es & E). apply rbind_Ok in E as (b & Eb & E). apply rbind_Ok in E as (l & El & E). injection E as <-. use. split; [|exact I]. rewrite wa_acall, md_mk, wa_call, md_none, (G l El). unfold wl. cbn [fold_right]. rewrite W. unfold src_of. rewrite Es. lia.
        * apply rbind_Ok in E as (is & Ei & E). apply rbind_Ok in E as (b & Eb & E). apply rbind_Ok in E as (l & El & E). injection E as <-. apply issue_between_eq in Ei. subst is. use. split; [|intros X; discriminate X]. rewrite wa_call, md_mk. unfold wl at 1. cbn [fold_right]. fold (wl l). rewrite W, (G l El). reflexivity.
    - apply rbind_Ok in E as (b & Eb & E). apply rbind_Ok in E as (l & El & E). pose proof (k_missing_args _ _ _ _ Ho Hch El) as G. use. destruct (op =? _); [injection E as <-; split; [rewrite wa_missing, W, G; reflexivity|exact I]|].
      destruct (op =? _); injection E as <-; (split; [|exact I]); rewrite wa_missing, md_src; [rewrite wa_call, md_none, G; unfold wl; cbn [fold_right]; rewrite W; cbn; lia|]. unfold wl at 1. cbn [fold_right]. fold (wl l). rewrite W, G. reflexivity.
  Qed.
  Lemma k_compound : forall op ch data, P (Op KCompound op ch) -> kp (Op KCompound op ch) (abstract_compound o rec op ch data) (wc (Op KCompound op ch)).
  Proof.
    intros op ch data H a E. rewrite wc_plain by exact I. pose proof (kids _ _ _ H) as Hc. pose proof (fits_P _ H) as F. inversion F as [| | | | | | | | |? ? C| | | | |]; subst. unfold abstract_compound in E.
    assert (S : forall x y, ch = [x; y] -> wcl ch = (wc x + wc y)%nat) by (intros x y ->; unfold wcl; cbn [fold_right]; lia).
    inversion C as [t u bop pbop Hb Hu|s t n bop pbop Hs Hb Ho|s t Hs Ht|t u Ht Hu|t u Ht Hu|t u Ht Hu]; subst; rewrite (S _ _ eq_refl); split_ch.
    - rewrite (wc_tok t). assert (Z : zin op [COP_Blank; COP_BlankSequence; COP_BlankNullSequence] = true) by (destruct Hb as [(_ & -> & _)|[(_ & -> & _)|(_ & -> & _)]]; reflexivity).
      rewrite Z in E. apply rbind_Ok in E as (b & Eb & E). injection E as <-. fin.
    - assert (Z : zin op [COP_Blank; COP_BlankSequence; COP_BlankNullSequence] = false /\ zin op [COP_CodeParser_PatternBlank; COP_CodeParser_PatternBlankSequence; COP_CodeParser_PatternBlankNullSequence] = true) by (destruct Hb as [(_ & _ & ->)|[(_ & _ & ->)|(_ & _ & ->)]]; split; reflexivity).
      destruct Z as [Z1 Z2]. rewrite Z1, Z2 in E. apply rbind_Ok in E as (b & Eb & E). apply rbind_Ok in E as (c & Ec & E). injection E as <-. fin.
    - cbn in E. rewrite Ht in E. cbn -[rbind] in E. apply rbind_Ok in E as (b & Eb & E). injection E as <-. rewrite (wc_tok t). use. split; [|apply nc_call; reflexivity]. sums.
    - rewrite (wc_tok t). destruct Hu as [Hu|Hu]; cbn -[rbind abstract_replace_token] in E; rewrite Hu in E; cbn -[rbind abstract_replace_token] in E.
      + apply rbind_Ok in E as (b & Eb & E). injection E as <-. destruct (k_token u b Eb) as [W N]. fin.
      + apply rbind_Ok in E as (b & Eb & E). injection E as <-. split; [|apply nc_call; reflexivity]. rewrite wa_call, ?md_src, ?md_none, ?Nat.add_0_l. unfold wl. cbn [fold_right]. rewrite (wc_tok u). cbn. lia.
    - rewrite (wc_tok t). cbn -[rbind] in E. rewrite Hu in E. cbn -[rbind] in E. apply rbind_Ok in E as (b & Eb & E). injection E as <-. fin.
    - rewrite (wc_tok t). cbn -[rbind] in E. rewrite Hu in E. cbn -[rbind] in E. apply rbind_Ok in E as (b & Eb & E). injection E as <-. fin.
  Qed.
  Lemma k_prefix : forall op ch data, P (Op KPrefix op ch) -> kp (Op KPrefix op ch) (abstract_prefix o rec op ch data) (wc (Op KPrefix op ch)).
  Proof.
    intros op ch data H. pose proof (kids _ _ _ H) as Hc. pose proof (fits_P _ H) as F. inversion F as [|? t x prec Ht| | | | | | | | | | | | |]; subst. split_ch. unfold abstract_prefix.
    destruct (Z.eqb_spec op PREOP_Minus) as [->|_]. { intros a E. rewrite prefix_weight by first [exact H|reflexivity]. apply rbind_Ok in E as (g & Eg & E). exact (k_negated_of _ _ _ _ H1 Eg a E). }
    destruct (Z.eqb_spec op PREOP_Plus) as [->|_]. { rewrite prefix_weight by first [exact H|reflexivity]. apply k_prefix_plus; exact H1. }
    destruct (Z.eqb_spec op PREOP_CodeParser_PrefixNot2) as [->|Hop]. { intros a E. unfold abstractNot2 in E. apply rbind_Ok in E as (s & Es & E). apply rbind_Ok in E as (b & Eb & E). injection E as <-. use. split; [|intros X; discriminate X]. rewrite wc_op. unfold own. cbn [report]. unfold src_of. rewrite Es. change (PREOP_CodeParser_PrefixNot2 =? PREOP_CodeParser_PrefixNot2) with true. cbv iota.
      rewrite wa_call, md_mk. f_equal. sums. }
    apply Z.eqb_neq in Hop. rewrite prefix_weight by first [exact H|exact Hop].
    destruct (op =? PREOP_CodeParser_PrefixLinearSyntaxBang). { intros a E. destruct (leaf_of _ _); [apply rbind_Ok in E as (b & Eb & E); apply rbind_Ok in E as (c & Ec & E); injection E as <-; use; split; [|exact I]; rewrite wa_bang, W, W0; rewrite (wc_tok t); reflexivity|].
      apply rbind_Ok in E as (b & Eb & E). injection E as <-. fin. }
    destruct (op =? PREOP_Get). { intros a E. destruct x as [u| | | | |]; try discriminate E. destruct (Z.eqb_spec (t_kind u) TK_String) as [K|_]; [|discriminate E]. apply rbind_Ok in E as (s & _ & E). injection E as <-. split; [|apply nc_call; reflexivity]. rewrite wa_call, ?md_src, ?md_none, ?Nat.add_0_l. unfold wl. cbn [fold_right].
      rewrite (wc_tok u). cbn. lia. }
    intros a E. apply rbind_Ok in E as (b & Eb & E). injection E as <-. fin.
  Qed.
  Lemma k_postfix : forall op ch data, P (Op KPostfix op ch) -> kp (Op KPostfix op ch) (abstract_postfix rec op ch data) (wc (Op KPostfix op ch)).
  Proof.
    intros op ch data H a E. rewrite wc_plain by exact I. pose proof (kids _ _ _ H) as Hc. pose proof (fits_P _ H) as F. inversion F as [| | |? x t prec Ht| | | | | | | | | | |]; subst. split_ch.
    assert (W0 : wcl [x; Tok t] = wc x) by (unfold wcl; cbn [fold_right]; rewrite (wc_tok t); lia). rewrite W0. unfold abstract_postfix in E.
    destruct (op =? _). { apply rbind_Ok in E as (b & Eb & E). injection E as <-. fin. }
    destruct (op =? _). { cbv zeta in E. destruct (_ =? _); [|destruct (_ =? _); [|discriminate E]].
      - apply rbind_Ok in E as ([z b] & Eb & E). injection E as <-. rewrite wa_acall, ?md_src, ?md_none, ?Nat.add_0_l. pose proof (k_derivative _ _ _ H0 Eb) as W. split; [|exact I]. unfold wl. cbn [fold_right]. rewrite W. cbn. lia.
      - apply rbind_Ok in E as (s & _ & E). apply rbind_Ok in E as (b & Eb & E). injection E as <-. use. split; [|exact I]. rewrite wa_acall, ?md_src, ?md_none, ?Nat.add_0_l. unfold wl. cbn [fold_right]. rewrite W. cbn. lia. }
    apply rbind_Ok in E as (b & Eb & E). injection E as <-. fin.
  Qed.
  Lemma k_binary : forall op ch data, P (Op KBinary op ch) -> kp (Op KBinary op ch) (abstract_binary o rec op ch data) (wc (Op KBinary op ch)).
  Proof.
    intros op ch data H a E. pose proof (kids _ _ _ H) as Hc. pose proof (fits_P _ H) as F. assert (X : exists x t y, ch = [x; Tok t; y]) by (inversion F; subst; eauto). destruct X as (x & t & y & ->). split_ch. rewrite binary_weight by exact H. clear F. unfold abstract_binary in E.
    destruct (op =? _). { unfold abstractTimes_BinaryNode_Divide in E. apply rbind_Ok in E as (fl & Ef & E). apply rbind_Ok in E as (args & Ea & E). apply rbind_Ok in E as (r & Er & E). injection E as <-. split; [|apply nc_call; reflexivity]. rewrite wa_call, ?md_src, ?md_none, ?Nat.add_0_l, wl_app.
      rewrite (k_operands rec fl args (fun n Hn b Eb => proj1 (Hrec n Hn b Eb)) (flatten_safe _ _ _ H0 Ef) Ea), (k_flatten _ _ _ H0 Ef). unfold reciprocate_into_ast in Er. apply rbind_Ok in Er as (b & Eb & Er). injection Er as <-. use. unfold wl. cbn [fold_right]. rewrite wa_call, ?md_src, ?md_none, ?Nat.add_0_l. unfold wl. cbn [fold_right]. rewrite W. cbn. lia. }
    destruct (op =? _). { apply rbind_Ok in E as (b & Eb & E). apply rbind_Ok in E as (c & Ec & E). injection E as <-. fin. }
    destruct (op =? _). { apply rbind_Ok in E as (b & Eb & E). apply rbind_Ok in E as (c & Ec & E). use. destruct (q_old_at_at_at o); injection E as <-; (split; [|apply nc_call; reflexivity]); rewrite wa_call, ?md_src, ?md_none, ?Nat.add_0_l; unfold wl; cbn [fold_right]; rewrite W, W0; [|lia]. rewrite wa_call, ?md_src, ?md_none, ?Nat.add_0_l. cbn. lia. }
    destruct (op =? _). { apply rbind_Ok in E as (b & Eb & E). apply rbind_Ok in E as (c & Ec & E). injection E as <-. fin. }
    destruct (zin _ _). { destruct y as [u| | | | |]; try discriminate E. destruct (Z.eqb_spec (t_kind u) TK_String) as [K|_]; [|discriminate E]. apply rbind_Ok in E as (s & _ & E). apply rbind_Ok in E as (b & Eb & E). injection E as <-. use. split; [|apply nc_call; reflexivity].
      rewrite wa_call, ?md_src, ?md_none, ?Nat.add_0_l. unfold wl. cbn [fold_right]. rewrite (wc_tok u). cbn. lia. }
    destruct (op =? _). { destruct (leaf_of TK_Equal (Tok t) && leaf_of TK_Dot y) eqn:L; [|discriminate E]. apply andb_true_iff in L as [_ L]. destruct y as [u| | | | |]; try discriminate L. cbn in L. apply Z.eqb_eq in L. apply rbind_Ok in E as (b & Eb & E). injection E as <-.
      rewrite (wc_tok u). fin. }
    apply rbind_Ok in E as (b & Eb & E). apply rbind_Ok in E as (c & Ec & E). destruct (_ && _); injection E as <-; fin.
  Qed.
  Lemma k_mapped : forall (f : cst -> res ast) l r, Forall P l -> (forall n, P n -> forall b, f n = Ok b -> wa b = wc n) -> mapr f l = Ok r -> wl r = wcl l.
  Proof.
    intros f l r H Hf E. apply mapr_Ok in E. induction E as [|a b l r E F IH]; [reflexivity|]. split_ch. specialize (IH H). pose proof (Hf a H0 b E) as J1. unfold wl, wcl in *. cbn [fold_right]. lia.
  Qed.
  Lemma k_infix : forall op ch data, get_source (Op KInfix op ch) = Ok data -> P (Op KInfix op ch) -> kp (Op KInfix op ch) (abstract_infix o rec op ch data) (wc (Op KInfix op ch)).
  Proof.
    intros op ch data Sd H. pose proof (kids _ _ _ H) as Hc. pose proof (P_evens P _ Hc) as He. unfold abstract_infix. destruct (Z.eqb_spec op IOP_CodeParser_InfixInequality) as [->|_]. { rewrite infix_weight by first [exact H|reflexivity]. apply k_inequality. exact Hc. }
    destruct (Z.eqb_spec op IOP_Plus) as [->|_]; [apply k_plus; exact H|].
    destruct (Z.eqb_spec op IOP_Times) as [->|_]. { intros a E. rewrite infix_weight by first [exact H|reflexivity]. apply rbind_Ok in E as (l & El & E). apply span_even in El. subst l. apply k_times_seq in E; [|exact He]. destruct E as (args & -> & W). split; [|apply nc_call; reflexivity]. rewrite wa_call, md_src. exact W. }
    destruct (Z.eqb_spec op IOP_Divisible) as [->|_]. { intros a E. rewrite infix_weight by first [exact H|reflexivity]. apply rbind_Ok in E as (l & El & E). apply span_even in El. subst l. apply rbind_Ok in E as (l & El & E). apply quirks_keep in El; [|exact He]. destruct El as [Pl Wl]. apply rbind_Ok in E as (args & Ea & E). injection E as <-. split; [|apply nc_call; reflexivity].
      rewrite wa_call, md_src, <- Wl, <- wcl_rev. apply k_list in Ea; [apply Ea|]. apply Forall_rev. exact Pl. }
    destruct (Z.eqb_spec op IOP_CompoundExpression) as [->|_]. { intros a E. rewrite infix_weight by first [exact H|reflexivity]. apply rbind_Ok in E as (l & El & E). apply span_even in El. subst l. apply rbind_Ok in E as (args & Ea & E). injection E as <-. split; [|apply nc_call; reflexivity]. rewrite wa_call, md_src. eapply k_mapped; [exact He| |exact Ea].
      intros n Hn b Eb. destruct n as [t| | | | |]; try (exact (proj1 (Hrec _ Hn _ Eb))). destruct (Z.eqb_spec (t_kind t) TK_Fake_ImplicitNull) as [K|_]; [|exact (proj1 (Hrec _ Hn _ Eb))]. injection Eb as <-. reflexivity. }
    destruct (Z.eqb_spec op IOP_MessageName) as [->|Hop]. { intros a E. rewrite infix_own by exact H. unfold own. cbn [report]. unfold src_of. rewrite Sd. change (IOP_MessageName =? IOP_MessageName) with true. cbv iota.
      apply rbind_Ok in E as (l & El & E). apply span_even in El. subst l. unfold abstractMessageName in E. destruct (evens ch) as [|x r]; [discriminate E|]. cbv zeta in E. split_ch. apply rbind_Ok in E as (b & Eb & E). apply rbind_Ok in E as (args & Ea & E). injection E as <-. split; [|intros X; discriminate X].
      rewrite wa_call, md_mk. cbn [tl]. f_equal. use. assert (Wr : wl args = wcl r). { eapply k_mapped; [exact He| |exact Ea]. intros n Hn c Ec. destruct n as [t| | | | |]; try (exact (proj1 (Hrec _ Hn _ Ec))). destruct (Z.eqb_spec (t_kind t) TK_String) as [K|_]; [|exact (proj1 (Hrec _ Hn _ Ec))].
        apply rbind_Ok in Ec as (s & _ & Ec). injection Ec as <-. reflexivity. }
      unfold wl, wcl in *. cbn [fold_right]. rewrite W, Wr. reflexivity. }
    apply Z.eqb_neq in Hop. rewrite infix_weight by first [exact H|exact Hop].
    destruct (op =? IOP_CodeParser_InfixTilde). { intros a E. apply rbind_Ok in E as (l & El & E). apply span_even in El. subst l. exact (k_tilde _ _ (from_src data) eq_refl He a E). }
    destruct (Nat.even _); [intros a E; discriminate E|]. intros a E. apply rbind_Ok in E as (l & El & E). apply span_even in El. subst l. apply rbind_Ok in E as (l & El & E). assert (X : Forall P l /\ wcl l = wcl (evens ch)).
    { destruct (zin _ _); [injection El as <-; auto|]. eapply quirks_keep; [exact He|exact El]. }
    destruct X as [Pl Wl]. apply rbind_Ok in E as (args & Ea & E). injection E as <-. split; [|apply nc_call; reflexivity]. rewrite wa_call, md_src, <- Wl. apply k_list in Ea; [apply Ea|exact Pl].
  Qed.
  Lemma k_ternary : forall op ch data, P (Op KTernary op ch) -> kp (Op KTernary op ch) (abstract_ternary rec op ch data) (wc (Op KTernary op ch)).
  Proof.
    intros op ch data H a E. pose proof (kids _ _ _ H) as Hc. pose proof (fits_P _ H) as F. rewrite wc_plain by exact I.
    assert (X : exists x t y u z, ch = [x; Tok t; y; Tok u; z]).
    { inversion F; subst; eauto 10. }
    destruct X as (x & t & y & u & z & ->). clear F. split_ch. assert (Wc : wcl [x; Tok t; y; Tok u; z] = (wc x + wc y + wc z)%nat) by (unfold wcl; cbn [fold_right]; rewrite !wc_tok; lia). rewrite Wc. clear Wc. unfold abstract_ternary in E.
    destruct (op =? _).
    { apply rbind_Ok in E as (m & Em & E). apply rbind_Ok in E as (b & Eb & E). apply rbind_Ok in E as (c & Ec & E). destruct (Hrec _ H2 _ Em) as [Wm Nm]. destruct (match y with Op KInfix iop _ => _ | _ => _ end) eqn:Ey.
      - destruct y as [|h mm op2 body|e ch|k iop ch|bb ch src|v1 v2 src]; try discriminate Ey. destruct k; try discriminate Ey. apply Z.eqb_eq in Ey. subst iop. destruct (Hcomma _ _ Em) as (args & d & ->). cbn -[rbind] in E. injection E as <-. clear Em. use. rewrite wa_call, ?md_src in Wm. split; [|exact I]. rewrite wa_acall, md_src, wa_abstract, md_mk. cbn [wt fold_right]. unfold wl in *. cbn [fold_right]. lia.
      - injection E as <-. clear Em. use. split; [|eapply nc_acall; [reflexivity|exact Nm]]. rewrite wa_acall, ?md_src, ?md_none, ?Nat.add_0_l. unfold wl. cbn [fold_right]. lia. }
    destruct (op =? _).
    { destruct (leaf_of TK_Equal (Tok u) && leaf_of TK_Dot z) eqn:L; [|discriminate E]. apply andb_true_iff in L as [_ L]. destruct z as [v| | | | |]; try discriminate L. cbn in L. apply Z.eqb_eq in L. apply rbind_Ok in E as (b & Eb & E). apply rbind_Ok in E as (c & Ec & E). injection E as <-.
      rewrite (wc_tok v). fin. }
    apply rbind_Ok in E as (b & Eb & E). apply rbind_Ok in E as (c & Ec & E). apply rbind_Ok in E as (d & Ed & E). destruct (op =? _); injection E as <-; fin.
  Qed.
  Lemma k_prefix_binary : forall op ch data, P (Op KPrefixBinary op ch) -> kp (Op KPrefixBinary op ch) (abstract_prefix_binary rec op ch data) (wc (Op KPrefixBinary op ch)).
  Proof.
    intros op ch data H a E. pose proof (kids _ _ _ H) as Hc. pose proof (fits_P _ H) as F. rewrite wc_plain by exact I. inversion F as [| |? t x y op2 Ht| | | | | | | | | | | |]; subst. split_ch. assert (Wc : wcl [Tok t; x; y] = (wc x + wc y)%nat) by (unfold wcl; cbn [fold_right]; rewrite (wc_tok t); lia).
    rewrite Wc. clear Wc. unfold abstract_prefix_binary in E. assert (R : rbind (rec x) (fun a => rbind (rec y) (fun b => Ok (call (op_symbol KPrefixBinary op) [a; b] (from_src data)))) = Ok a -> wa a = (wc x + wc y)%nat /\ forall n, nc n a).
    { intros E'. apply rbind_Ok in E' as (b & Eb & E'). apply rbind_Ok in E' as (c & Ec & E'). injection E' as <-. use. split; [sums|intros n; nct]. }
    assert (R' : wa a = (wc x + wc y)%nat /\ (forall n, nc n a) -> wa a = (wc x + wc y)%nat /\ nc (Op KPrefixBinary op [Tok t; x; y]) a) by (intros [R1 R2]; auto).
    destruct y as [v|h m cop body|e ch|k dop cs|bb ch src|v1 v2 src]; try exact (R' (R E)). destruct k; try exact (R' (R E)). destruct (zin dop _) eqn:Zd; [|exact (R' (R E))]. destruct cs as [|v1 [|var [|? ?]]]; try discriminate E. pose proof (kids _ _ _ H2) as Hk. rewrite (prefix_weight _ _ _ H2) by (destruct (Z.eqb_spec dop PREOP_CodeParser_PrefixNot2) as [->|]; [discriminate Zd|reflexivity]). split_ch.
    apply rbind_Ok in E as (b & Eb & E). apply rbind_Ok in E as (c & Ec & E). injection E as <-. fin.
  Qed.
  Lemma k_node : forall n data, get_source n = Ok data -> P n -> kp n (abstract_node o rec n data) (wc n).
  Proof.
    intros n data Sd H. pose proof (fits_P _ H) as F. destruct n as [t|h m op body|e ch|k op ch|b ch src|x y src]; cbn [abstract_node].
    - apply k_token.
    - apply k_call. exact H.
    - inversion F as [| | | | | | | | | | | | | |? x t y K]; subst. pose proof (P_children P closed _ H) as Hc. cbn [children] in Hc. split_ch. intros a E. apply rbind_Ok in E as (b & Eb & E). apply rbind_Ok in E as (c & Ec & E). injection E as <-. use. split; [|exact I].
      rewrite wa_syntax, wc_err. unfold wl, wcl. cbn [fold_right]. rewrite (wc_tok t), md_src. lia.
    - destruct k; [apply k_prefix|apply k_infix|apply k_postfix|apply k_binary|apply k_ternary|apply k_prefix_binary|apply k_compound|apply k_group| |]; try exact H; try exact Sd; inversion F as [| | | | | | | | | | |? t mid Ho| | |]; subst.
      intros a E. apply rbind_Ok in E as (l & El & E). injection E as <-. split; [|exact I]. rewrite wa_group, wc_plain by exact I. eapply k_missing_args; [exact Ho|eapply kids; exact H|exact El].
    - inversion F.
    - inversion F.
  Qed.
End keep.

Lemma comma_head : forall o k ch a, abstract_ o k (Op KInfix IOP_CodeParser_Comma ch) = Ok a -> exists args s, a = call "CodeParser`Comma" args (from_src s).
Proof.
  intros o k ch a E. destruct k as [|k]; [discriminate E|]. cbn [abstract_] in E. apply rbind_Ok in E as (data & _ & E). apply rbind_Ok in E as (x & Ex & E). destruct (a_dbg o && _); [discriminate E|]. injection E as <-.
  cbn [abstract_node] in Ex. unfold abstract_infix in Ex. change (IOP_CodeParser_Comma =? IOP_CodeParser_InfixInequality) with false in Ex. change (IOP_CodeParser_Comma =? IOP_Plus) with false in Ex.
  change (IOP_CodeParser_Comma =? IOP_Times) with false in Ex. change (IOP_CodeParser_Comma =? IOP_Divisible) with false in Ex. change (IOP_CodeParser_Comma =? IOP_CompoundExpression) with false in Ex.
  change (IOP_CodeParser_Comma =? IOP_MessageName) with false in Ex. change (IOP_CodeParser_Comma =? IOP_CodeParser_InfixTilde) with false in Ex. cbv iota in Ex.
  destruct (Nat.even (length ch)); [discriminate Ex|]. apply rbind_Ok in Ex as (l & _ & Ex). apply rbind_Ok in Ex as (l2 & _ & Ex). apply rbind_Ok in Ex as (args & _ & Ex). change (op_symbol KInfix IOP_CodeParser_Comma) with "CodeParser`Comma"%string in Ex. apply Ok_inj in Ex. subst x. eauto.
Qed.
Lemma issues_weight : forall w o k n, P n -> kp w n (abstract_ o k n) (wc w n).
Proof.
  intros w o k. induction k as [|k IH]; intros n H; [intros a E; discriminate E|]. intros a E. cbn [abstract_] in E. apply rbind_Ok in E as (data & Sd & E). apply rbind_Ok in E as (x & Ex & E). destruct (a_dbg o && _); [discriminate E|]. injection E as <-.
  refine (k_node w o (abstract_ o k) IH _ n data Sd H x Ex). intros ch b Eb. eapply comma_head. exact Eb.
Qed.
Lemma source_dec : forall a b : asource, {a = b} + {a <> b}.  Proof. decide equality; apply span_dec. Qed.
Lemma issue_dec : forall a b : aissue, {a = b} + {a <> b}.
Proof. decide equality; try apply Z.eq_dec; try apply source_dec; try (apply list_eq_dec; apply source_dec); decide equality. Qed.
Lemma wt_count : forall x l, wt (fun y => if issue_dec y x then 1%nat else 0%nat) l = count_occ issue_dec l x.
Proof. intros x l. induction l as [|y l IH]; [reflexivity|]. unfold wt in *. cbn. destruct (issue_dec y x); rewrite IH; reflexivity. Qed.
Theorem abstract_reports : forall o n a, good n -> Forall (fun m => ~ hidden m) (nodes n) -> abstract_cst o n = Ok a -> Permutation (flat_map report (nodes n)) (ast_issues a).
Proof.
  intros o n a G K E. apply (Permutation_count_occ issue_dec). intros x. rewrite <- !wt_count.
  destruct (issues_weight (fun y => if issue_dec y x then 1%nat else 0%nat) o _ _ (conj G K) _ E) as [W _]. symmetry. exact W.
Qed.
