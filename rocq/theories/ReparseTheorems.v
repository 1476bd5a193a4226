(** Second thoughts about unterminated tokens: the theorems behind C28. *)
From Coq Require Import ZArith List Bool Lia.
From Verif Require Import Base Source WLChar SpecText SpecMisc SpecReader ByteDecoder CharDecoder Decode TextProofs Logic WlDecode FormatProofs ReaderProofs MiscProofs
  GenTokenKind TokenKind Tokenizer Iter TokLogic TokenizerProofs SpecTokenizer TokenLoop TokSim TokSpecs TokAgree TokResults Utils Cst Parser ErrorReparse
  ReparseProofs SpecReparse.
Import ListNotations.
Local Open Scope Z_scope.

(** ** Unterminated tokens *)
Lemma unterminated_b : forallb (fun k => Bool.eqb (isError k && isUnterminated k)
   (zin k [TK_Error_UnterminatedComment; TK_Error_UnterminatedString; TK_Error_UnterminatedFileString; TK_Error_UnterminatedLinearSyntaxBlob])
   && Bool.eqb (isUnterminated k) (isError k && isUnterminated k)) LEX_KINDS = true.
Proof. vm_compute. reflexivity. Qed.
Lemma unterminated_iff : forall t, lexable (t_kind t) = true -> (unterminated t = true <-> unterminated_kind (t_kind t)).
Proof.
  intros t H. pose proof (lexable_forall _ unterminated_b _ H) as K. cbn beta in K. apply andb_true_iff in K as [K _]. apply eqb_prop in K.
  unfold unterminated. rewrite K. rewrite zin_In. cbn [In]. unfold unterminated_kind. intuition congruence.
Qed.
Lemma unterminated_open : forall t, lexable (t_kind t) = true -> unterminated t = isUnterminated (t_kind t).
Proof.
  intros t H. pose proof (lexable_forall _ unterminated_b _ H) as K. cbn beta in K. apply andb_true_iff in K as [_ K]. apply eqb_prop in K. auto.
Qed.

Lemma raw_moves : forall o b input ts s', 0 < o_tab_width o -> tokenize_raw o b input = Ok (ts, s') ->
  exists s1, Inv o s1 /\ R o (reader_new o input) s1 /\ with_fuel (tokens_loop o) s1 = Ok (ts, s').
Proof.
  intros o b input ts s' Ht E. pose proof (reader_new_Inv o input Ht) as HI. set (s := reader_new o input) in *.
  unfold tokenize_raw, run_tokens, bind in E. fold s in E. pose proof (handle_first_line_ok o b s s HI (R_refl _ _)) as H. unfold wpr in H.
  destruct (handle_first_line o b s) as [[[] s1]| |]; [|discriminate|discriminate]. destruct H as (I1 & R1 & _). exists s1. auto.
Qed.
Lemma raw_open : forall o b input ts s' pre t post, 0 < o_tab_width o -> tokenize_raw o b input = Ok (ts, s') -> ts = pre ++ t :: post ->
  isUnterminated (t_kind t) = true ->
  post = [] /\ t_start t = t_text t /\ t_text t <> [] /\ (forall c w r, clean_step (t_text t) c w r -> is_line_end c = false) /\
  exists cs l ds l2, moves o input (newSourceLocation (o_conv o)) cs (t_text t) l /\ moves o (t_text t) l ds [] l2 /\ t_src t = mkspan l l2.
Proof.
  intros o b input ts s' pre t post Ht E Ets U. destruct (raw_moves _ _ _ _ _ Ht E) as (s1 & I1 & R1 & El). unfold with_fuel in El.
  destruct (open_last _ _ _ _ _ I1 El _ _ _ Ets U) as [-> Er].
  destruct (token_place _ _ _ _ _ I1 El _ _ _ Ets) as (st1 & s2 & k & J1 & J2 & J3 & J4 & J5 & _).
  pose proof J4 as (A1 & A2 & A3 & A4 & A5 & A6 & A7). rewrite Er, app_nil_r in A5. split; auto. split; [congruence|].
  assert (Lx : lexable (t_kind t) = true /\ t_text t <> []).
  { destruct A7 as [(A7 & B & _)|[(g & pl & _ & A7 & _)|(A7 & _ & [?|?])]]; auto; try discriminate. }
  split; [tauto|]. split.
  - intros c w r H. destruct (is_line_end c) eqn:Ec; auto. exfalso.
    assert (K : t_kind t = TK_ToplevelNewline \/ t_kind t = TK_InternalNewline).
    { change top_req with (AsToken false TOPLEVEL) in J3. apply (ask_po _ _ _ _ _ _ (fun t => t_kind t = TK_ToplevelNewline \/ t_kind t = TK_InternalNewline) J3).
      intros pol' Hp. eapply po_conseq; [eapply nextToken_newline; eauto|]. { rewrite A5. exact H. }
      cbn beta. intros a _ [-> _]. unfold newline_with_policy. destruct (p_toplevel pol'); auto. }
    destruct K as [K|K]; rewrite K in U; vm_compute in U; discriminate.
  - pose proof (R_trans _ _ _ _ R1 J2) as RR. destruct RR as ((cs & M & _) & _). destruct A3 as ((ds & M2 & _) & _). cbn [cur] in M2.
    rewrite A5 in M, M2. rewrite Er in M2. exists cs, (ploc (cur st1)), ds, (ploc (after t)). auto.
Qed.

Lemma raw_lexable : forall o b input ts s', 0 < o_tab_width o -> tokenize_raw o b input = Ok (ts, s') -> Forall (fun t => lexable (t_kind t) = true) ts.
Proof.
  intros o b input ts s' Ht E. destruct (tokenize_facts _ _ _ _ _ Ht E) as (sk & s1 & _ & _ & _ & _ & F & _).
  eapply Forall_impl; [|exact F]. intros t [H _]. exact H.
Qed.

Lemma raw_open_first : forall o b input ts s' pre t post, 0 < o_tab_width o -> well_formed_no_bom input -> tokenize_raw o b input = Ok (ts, s') -> ts = pre ++ t :: post ->
  isUnterminated (t_kind t) = true -> exists c0 n0 more, lines_of (t_text t) ((c0, n0) :: more) /\ c0 <> [].
Proof.
  intros o b input ts s' pre t post Ht Wf E Ets U. destruct (raw_open _ _ _ _ _ _ _ _ Ht E Ets U) as (_ & _ & Nt & Nl & cs & l & ds & l2 & M & _).
  destruct (moves_clean _ _ _ _ _ _ M Wf) as [Wt _]. pose proof (split_lines_ok _ Nt) as L.
  destruct (split_lines_keep_sep (t_text t)) as [|[c0 n0] more] eqn:Es; [inversion L; congruence|]. exists c0, n0, more. split; auto.
  intros ->. destruct (lines_split _ _ L [] [] n0 more eq_refl) as (Et & _ & D). cbn in Et.
  destruct (clean_decode _ Nt Wt) as (w & S & Ew & _). apply Nl in S as S'.
  assert (Hd : match n0 with [] => False | b :: _ => b = 10 \/ b = 13 end).
  { destruct D as [(_ & _ & D)|[->|[->| ->]]]; [congruence| | |]; auto. }
  destruct n0 as [|b0 n0]; [contradiction|]. rewrite Et in S, S'. cbn [app] in S, S'. clear - S S' Hd. revert S S'.
  generalize (dchar (decode (b0 :: n0 ++ text_of more))) (drest (decode (b0 :: n0 ++ text_of more))). intros c r S S'.
  inversion S as [r' E1 E2|c' r' Sc Nc E1 E2 E3]; subst; [discriminate|].
  destruct (utf8_head _ Sc) as (b & t & Eu & _ & _ & _ & C1 & C2). rewrite Eu in E1. injection E1 as E1 _.
  assert (H : c = b0).
  { destruct (Z_lt_ge_dec c 128) as [Hl|Hl].
    - destruct (C1 Hl). congruence.
    - assert (0x80 <= b) by (apply C2; lia). lia. }
  rewrite H in S'. destruct Hd as [->| ->]; discriminate.
Qed.

(** ** Positions *)
Lemma lines_prefix : forall t ls, lines_of t ls -> forall A g m rest, ls = A ++ (g, m) :: rest -> g <> [] -> lines_of (text_of A ++ g) (A ++ [(g, [])]).
Proof.
  induction 1 as [|l N B|l s r ls NB LB H IH C]; intros A g m rest E Hg.
  - destruct A; discriminate.
  - destruct A as [|p A]; [|destruct A; discriminate]. injection E as <- <- <-. cbn. constructor; auto.
  - destruct A as [|p A].
    + injection E as <- <- <-. cbn. constructor; auto.
    + injection E as <- ->. cbn [app]. unfold text_of. cbn [map concat]. unfold whole at 1. cbn [fst snd]. rewrite <- !app_assoc.
      constructor; auto; [eapply IH; eauto|]. intros Es r' Er. destruct (lines_split _ _ H _ _ _ _ eq_refl) as (Er' & _).
      fold (text_of A) in Er. destruct (text_of A) as [|x y].
      * cbn in Er. subst g. cbn in Er'. eapply C; eauto.
      * cbn in Er. injection Er as -> _. cbn in Er'. eapply C; eauto.
Qed.
Lemma ended_prefix : forall (a b A : list (list Z * list Z)) g, a ++ b = A ++ [(g, [])] -> Forall (fun p => snd p <> []) a -> (length b <= 1)%nat -> a = A /\ b = [(g, [])].
Proof.
  intros a b A g E F L. destruct b as [|x [|y b]]; [|apply app_inj_tail in E as [-> ->]; auto|cbn in L; lia].
  rewrite app_nil_r in E. subst a. apply Forall_app in F as [_ F]. inversion F; subst. cbn in *. congruence.
Qed.
Lemma end_position : forall o p A g cs, o_conv o = ConvLineColumn -> 0 < o_tab_width o -> lines_of p (A ++ [(g, [])]) ->
  Forall scalar cs -> ~ In BOM_CHAR cs -> p = encode cs ->
  exists W, walk_columns 1 (o_tab_width o) g = Ok W /\ position_of (o_conv o) (o_tab_width o) (fold_crlf cs) = LineCol (1 + Z.of_nat (length A)) W.
Proof.
  intros o p A g cs Ec Ht L F N E. destruct (moves_encode o cs (newSourceLocation (o_conv o)) F N) as [l' M]. rewrite <- E in M.
  assert (Wp : well_formed_no_bom p) by (exists cs; auto).
  assert (C0 : cursor (o_tab_width o) p p (newSourceLocation (o_conv o)) [] []) by (rewrite Ec; apply cursor_start).
  destruct (cursor_moves _ _ _ _ _ _ _ Ht M Wp _ _ C0) as (b' & c' & [T Ls (C & El & W) _ _ D]).
  assert (Np : p <> []). { intros ->. destruct (lines_split _ _ L A g [] [] eq_refl) as (X & _ & [(_ & _ & Y)|[Y|[Y|Y]]]); try discriminate. symmetry in X. apply app_eq_nil in X as [_ X]. apply app_eq_nil in X as [X _]. auto. }
  assert (E2 : split_lines_from [] p = A ++ [(g, [])]).
  { apply (lines_of_unique p); auto. pose proof (split_lines_ok p Np) as K. unfold split_lines_keep_sep in K. destruct p; [congruence|exact K]. }
  rewrite E2 in Ls. symmetry in Ls. apply ended_prefix in Ls as [-> Ls]; auto.
  - exists C. assert (c' = g) as <- by (destruct c'; cbn in Ls; congruence). split; auto.
    rewrite position_of_loc. rewrite <- El. symmetry. apply (moves_loc_of_text _ _ _ _ _ _ M []). destruct o; cbn in *; subst; reflexivity.
  - destruct c'; cbn; lia.
Qed.

(** ** The cut *)
Lemma take_stops : forall starts l, exists others, l = take_lines starts l ++ others /\ stops (fun c => starts c = true) others /\
  Forall (fun p => ~ starts (fst p) = true) (take_lines starts l).
Proof.
  induction l as [|x l (others & E & S & F)]; [exists []; cbn; auto|]. cbn [take_lines]. destruct (starts (fst x)) eqn:Es.
  - exists (x :: l). cbn. auto.
  - exists others. cbn [app]. split; [congruence|]. split; auto. constructor; auto. congruence.
Qed.
Lemma cut_cases : forall l : list (list Z * list Z), l = [] \/ (l <> [] /\ Forall blank l) \/
  exists mid g m blanks, l = mid ++ (g, m) :: blanks /\ g <> [] /\ Forall blank blanks.
Proof.
  induction l as [|[c n] l IH] using rev_ind; auto. right. destruct c as [|x c].
  - destruct IH as [->|[[N F]|(mid & g & m & blanks & -> & Hg & F)]].
    + left. split; [discriminate|]. repeat constructor.
    + left. split; [destruct l; discriminate|]. apply Forall_app. split; auto. repeat constructor.
    + right. exists mid, g, m, (blanks ++ [([], n)]). split; [rewrite <- app_assoc; reflexivity|]. split; auto. apply Forall_app. split; auto. repeat constructor.
  - right. exists l, (x :: c), n, []. split; auto. split; [discriminate|auto].
Qed.

Lemma reparse_cut : forall tl starts o b input ts s' pre t, o_conv o = ConvLineColumn -> 0 < o_tab_width o -> well_formed_no_bom input ->
  tokenize_raw o b input = Ok (ts, s') -> ts = pre ++ [t] -> isUnterminated (t_kind t) = true ->
  forall ls, lines_of (t_text t) ls -> (forall c n, In (c, n) (List.tl ls) -> is_new_statement_line tl c = Ok (starts c)) ->
  exists r, cut (fun c => starts c = true) ls r /\
  match r with
  | None => reparse_token tl input (o_tab_width o) t = Panic
  | Some (kept, reported) => exists t', reparse_token tl input (o_tab_width o) t = Ok t' /\
      t_kind t' = t_kind t /\ t_text t' = kept /\ t_start t' = t_start t /\ sp_start (t_src t') = sp_start (t_src t) /\
      forall w cs, input = w ++ t_text t -> Forall scalar cs -> ~ In BOM_CHAR cs -> encode cs = w ++ reported ->
        sp_end (t_src t') = position_of (o_conv o) (o_tab_width o) (fold_crlf cs)
  end.
Proof.
  intros tl starts o b input ts s' pre t Ec Ht Wf E Ets U ls L Hs. set (tw := o_tab_width o).
  destruct (raw_open_first _ _ _ _ _ _ _ _ Ht Wf E Ets U) as (c0 & n0 & more & L' & N0). pose proof (lines_of_unique _ _ L _ L') as Els. rewrite Els in *. clear Els L' ls.
  destruct (raw_open _ _ _ _ _ _ _ _ Ht E Ets U) as (_ & St & Nt & Nl & cs & l & ds & l2 & M & M2 & Sp).
  destruct (moves_clean _ _ _ _ _ _ M Wf) as [Wt _].
  assert (C0 : cursor tw input input (newSourceLocation (o_conv o)) [] []) by (rewrite Ec; apply cursor_start).
  destruct (cursor_moves _ _ _ _ _ _ _ Ht M Wf _ _ C0) as (before & cpre & C1).
  destruct (cursor_moves _ _ _ _ _ _ _ Ht M2 Wt _ _ C1) as (before2 & cpre2 & C2). fold tw in C1, C2.
  pose proof C1 as [T1 Ls1 (k1 & El1 & W1) B1 F1 D1]. pose proof C2 as [_ Ls2 (k2 & El2 & W2) _ _ _].
  assert (Es : split_lines_from cpre (t_text t) = (cpre ++ c0, n0) :: more).
  { rewrite (split_from_line (length (t_text t))) by lia.
    replace (split_lines_from [] (t_text t)) with ((c0, n0) :: more); auto. apply (lines_of_unique (t_text t)); auto.
    pose proof (split_lines_ok _ Nt) as K. unfold split_lines_keep_sep in K. destruct (t_text t); [congruence|exact K]. }
  assert (HL : Z.of_nat (length more) <= 1 + Z.of_nat (length before2) - (1 + Z.of_nat (length before))).
  { rewrite Ls1, Es in Ls2. apply (f_equal (@length _)) in Ls2. rewrite !app_length in Ls2. cbn [length] in Ls2.
    destruct cpre2; cbn in Ls2; lia. }
  assert (Li : lines_of input (before ++ (cpre ++ c0, n0) :: more)).
  { rewrite <- Es, <- Ls1. assert (Ni : input <> []). { rewrite T1. destruct (text_of before), cpre; try discriminate. exact Nt. }
    pose proof (split_lines_ok input Ni) as K. unfold split_lines_keep_sep in K. destruct input; [congruence|exact K]. }
  assert (Hs' : forall c n, In (c, n) more -> is_new_statement_line tl c = Ok (starts c)) by exact Hs.
  assert (Sp' : t_src t = mkspan l (LineCol (1 + Z.of_nat (length before2)) k2)) by congruence.
  destruct (take_stops starts more) as (others & Em & So & Fo).
  destruct (cut_cases (take_lines starts more)) as [Eq|[[Nq Fq]|(mid & g & m & blanks & Eq & Hg & Fq)]].
  - exists (Some (c0, c0)). split.
    { rewrite Eq in Em. cbn in Em. subst others. constructor; auto. }
    destruct (cut_one tl starts tw input t l before cpre c0 n0 more k1 _ k2 Ht C1 Wt L N0 El1 Sp' HL Hs' Eq) as (W & EW & ->).
    eexists. split; [reflexivity|]. cbn [t_kind t_text t_start t_src sp_start sp_end]. split; auto. split; auto. split; auto. split; [rewrite Sp; auto|].
    intros w cs' Ew Fc Nc Een. assert (w = text_of before ++ cpre) as -> by (rewrite T1, app_assoc in Ew; apply app_inv_tail in Ew; auto).
    destruct (end_position o (text_of before ++ (cpre ++ c0)) before (cpre ++ c0) cs' Ec Ht) as (W' & EW' & P); auto.
    { eapply lines_prefix; eauto. destruct cpre; [exact N0|discriminate]. }
    { rewrite Een, app_assoc. reflexivity. }
    fold tw in P, EW'. rewrite P. rewrite EW in EW'. injection EW' as <-. reflexivity.
  - exists None. split.
    { rewrite Em. constructor; auto. }
    apply (cut_blank tl starts tw input t l before cpre c0 n0 more k1 _ k2 Ht C1 Wt L N0 El1 Sp' HL Hs'); auto.
  - destruct (exists_last (l := (c0, n0) :: mid) ltac:(discriminate)) as (kept & [c n] & Ek).
    exists (Some (joined kept ++ c, joined kept ++ c ++ n ++ g)). split.
    { rewrite Em, Eq, <- app_assoc. cbn [app]. apply cut_block; auto. rewrite <- Eq. auto. }
    destruct (cut_more tl starts tw input t l before cpre c0 n0 more k1 _ k2 Ht C1 Wt L N0 El1 Sp' HL Hs' mid g m blanks kept c n Eq Hg Fq Ek) as (W & EW & ->).
    eexists. split; [reflexivity|]. cbn [t_kind t_text t_start t_src sp_start sp_end]. split; auto. split; auto. split; auto. split; [rewrite Sp; auto|].
    intros w cs' Ew Fc Nc Een. assert (w = text_of before ++ cpre) as -> by (rewrite T1, app_assoc in Ew; apply app_inv_tail in Ew; auto).
    assert (Ej : joined kept ++ c ++ n ++ g = c0 ++ n0 ++ text_of mid ++ g).
    { assert (X : text_of ((c0, n0) :: mid) = joined kept ++ c ++ n) by (rewrite Ek, text_of_app; unfold text_of; cbn [map concat]; unfold whole at 2; cbn [fst snd]; rewrite app_nil_r; reflexivity).
      replace (joined kept ++ c ++ n ++ g) with ((joined kept ++ c ++ n) ++ g) by (rewrite <- !app_assoc; reflexivity). rewrite <- X. unfold text_of. cbn [map concat]. unfold whole at 1. cbn [fst snd]. rewrite <- !app_assoc. reflexivity. }
    destruct (end_position o (text_of (before ++ (cpre ++ c0, n0) :: mid) ++ g) (before ++ (cpre ++ c0, n0) :: mid) g cs' Ec Ht) as (W' & EW' & P); auto.
    { eapply (lines_prefix _ _ Li _ _ m (blanks ++ others)); auto. rewrite Em, Eq, <- !app_assoc. reflexivity. }
    { rewrite Een, Ej, text_of_app. change (text_of ((cpre ++ c0, n0) :: mid)) with (((cpre ++ c0) ++ n0) ++ text_of mid). rewrite <- !app_assoc. reflexivity. }
    fold tw in P, EW'. rewrite P. rewrite EW in EW'. injection EW' as <-. f_equal. rewrite app_length. cbn [length]. lia.
Qed.

(** ** The whole list of tokens *)
Definition line_tokens (k : nat) (o : opts) (l : list Z) : res (list token) :=
  rbind (tokenize_bytes_n k (options_default o) NotScript l) (fun r => match r with TOk ts => Ok ts | TErr _ => Panic end).

Lemma bytes_eq : forall k o b input ts s', 0 < o_tab_width o -> well_formed_no_bom input -> tokenize_raw o b input = Ok (ts, s') ->
  tokenize_bytes_n (S k) o b input = rmap TOk (map_res (reparse_if (line_tokens k o) input (o_tab_width o)) ts).
Proof.
  intros k o b input ts s' Ht Wf E. cbn [tokenize_bytes_n]. rewrite E. rewrite (proj2 (raw_flag _ _ _ _ _ Ht E) Wf).
  replace (utf8_valid input) with true; [reflexivity|]. symmetry. apply utf8_valid_iff. apply clean_well_formed; auto.
Qed.
Lemma map_res_same : forall tl input tw ts, Forall (fun t => unterminated t = false) ts -> map_res (reparse_if tl input tw) ts = Ok ts.
Proof. intros tl input tw ts F. induction F as [|t ts H F IH]; cbn [map_res]; auto. unfold reparse_if at 1. rewrite H. cbn [rbind]. rewrite IH. reflexivity. Qed.
Lemma map_res_last : forall tl input tw pre t, Forall (fun t => unterminated t = false) pre -> unterminated t = true ->
  map_res (reparse_if tl input tw) (pre ++ [t]) = rmap (fun t' => pre ++ [t']) (reparse_token tl input tw t).
Proof.
  intros tl input tw pre t F U. induction F as [|p pre H F IH]; cbn [map_res app].
  - unfold reparse_if. rewrite U. destruct (reparse_token tl input tw t); reflexivity.
  - unfold reparse_if at 1. rewrite H. cbn [rbind]. rewrite IH. destruct (reparse_token tl input tw t); reflexivity.
Qed.
Lemma raw_cases : forall o b input ts s', 0 < o_tab_width o -> tokenize_raw o b input = Ok (ts, s') ->
  Forall (fun t => unterminated t = false) ts \/
  exists pre t, ts = pre ++ [t] /\ Forall (fun t => unterminated t = false) pre /\ unterminated t = true /\ isUnterminated (t_kind t) = true.
Proof.
  intros o b input ts s' Ht E. pose proof (raw_lexable _ _ _ _ _ Ht E) as Lx.
  assert (K : forall pre t post, ts = pre ++ t :: post -> unterminated t = true -> post = []).
  { intros pre t post Ets U. assert (L : lexable (t_kind t) = true) by (rewrite Ets in Lx; apply Forall_app in Lx as [_ Lx]; inversion Lx; auto).
    rewrite unterminated_open in U by auto. destruct (raw_open _ _ _ _ _ _ _ _ Ht E Ets U) as (-> & _). reflexivity. }
  clear E. induction ts as [|t ts IH]; [left; auto|]. inversion Lx as [|? ? L1 L2]; subst. destruct (unterminated t) eqn:U.
  - right. exists [], t. rewrite (K [] t ts eq_refl U). split; auto. split; auto. split; auto. rewrite <- unterminated_open; auto.
  - destruct (IH L2) as [F|(pre & u & -> & F & Hu)].
    + intros pre u post -> Hu. apply (K (t :: pre) u post eq_refl Hu).
    + left. auto.
    + right. exists (t :: pre), u. split; auto.
Qed.

(** a text of one line *)
Lemma one_line : forall k o b input, o_conv o = ConvLineColumn -> 0 < o_tab_width o -> well_formed_no_bom input -> ~ has_surrogate_escape input -> no_break input ->
  exists ts s', tokenize_raw o b input = Ok (ts, s') /\ tokenize_bytes_n (S k) o b input = Ok (TOk ts).
Proof.
  intros k o b input Ec Ht Wf Ns Nb. destruct (tokenize_total o b input Ht Ns) as (ts & s' & E). exists ts, s'. split; auto.
  rewrite (bytes_eq k _ _ _ _ _ Ht Wf E).
  destruct (raw_cases _ _ _ _ _ Ht E) as [F|(pre & t & Ets & F & U & U')]; [rewrite map_res_same by auto; reflexivity|].
  rewrite Ets, map_res_last by auto. destruct (raw_open _ _ _ _ _ _ _ _ Ht E Ets U') as (_ & St & Nt & Nl & cs & l & ds & l2 & M & M2 & Sp).
  destruct (moves_clean _ _ _ _ _ _ M Wf) as [Wt (w & Ew & Ww)].
  assert (Nbt : no_break (t_text t)). { rewrite Ew in Nb. destruct Nb as [N1 N2]. split; intros X; [apply N1|apply N2]; apply in_or_app; auto. }
  destruct (reparse_cut (line_tokens k o) (fun _ => false) o b input ts s' pre t Ec Ht Wf E Ets U' [(t_text t, [])] (lines_last _ Nt Nbt)) as (r & C & P).
  { intros c n []. }
  assert (Er : r = Some (t_text t, t_text t)).
  { inversion C as [c n others X Y|c n blanks others X X1 X2 X3 Y Y'|c1 n1 mid kept c n g m blanks others X X1 X2 X3 X4 Y Y']; subst; auto.
    - destruct blanks; [congruence|discriminate].
    - destruct mid; discriminate. }
  rewrite Er in P. destruct P as (t' & -> & K1 & K2 & K3 & K4 & K5). cbn [rmap rbind]. repeat f_equal.
  destruct Wf as (cs' & Fc & Nc & Ei). specialize (K5 w cs' Ew Fc Nc ltac:(congruence)).
  assert (El : l2 = position_of (o_conv o) (o_tab_width o) (fold_crlf cs')).
  { destruct (moves_encode o cs' (newSourceLocation (o_conv o)) Fc Nc) as [l' Me]. rewrite <- Ei in Me.
    pose proof (moves_trans _ _ _ _ _ _ _ _ _ M M2) as MM. destruct (moves_det _ _ _ _ _ _ MM _ _ Me) as (es & E1 & E2).
    inversion E2 as [|? ? ? ? ? X]; subst; [|congruence]. rewrite position_of_loc. rewrite E1, app_nil_r.
    apply (moves_loc_of_text _ _ _ _ _ _ MM []). destruct o; cbn in *; subst; reflexivity. }
  destruct t as [tk1 tk2 tk3 [tk4 tk5]], t' as [tu1 tu2 tu3 [tu4 tu5]]. cbn [t_kind t_text t_start t_src sp_start sp_end] in *. congruence.
Qed.
Lemma surrogate_sub : forall a b c, ~ has_surrogate_escape (a ++ b ++ c) -> ~ has_surrogate_escape b.
Proof.
  intros a b c N (p & q & -> & (ds & r & F & Hb & Hn)). apply N. exists (a ++ p), (q ++ c). split; [rewrite <- !app_assoc; reflexivity|].
  exists ds, (r ++ c). split; auto. split; auto. destruct Hb as [[-> L]|[-> L]]; [left|right]; (split; auto; cbn; rewrite <- app_assoc; reflexivity).
Qed.
Lemma line_tokens_raw : forall k o l, well_formed_no_bom l -> ~ has_surrogate_escape l -> no_break l ->
  exists ts s', tokenize_raw (options_default o) NotScript l = Ok (ts, s') /\ line_tokens (S k) o l = Ok ts.
Proof.
  intros k o l W N B. destruct (one_line k (options_default o) NotScript l eq_refl eq_refl W N B) as (ts & s' & E & E2). exists ts, s'. split; auto.
  unfold line_tokens. rewrite E2. reflexivity.
Qed.

(** ** Lines that start a statement *)
Definition WHITE : list Z := [9; 10; 11; 12; 13; 32; 0x85; 0xA0; 0x1680; 0x2000; 0x2001; 0x2002; 0x2003; 0x2004; 0x2005; 0x2006; 0x2007; 0x2008; 0x2009; 0x200A;
  0x2028; 0x2029; 0x202F; 0x205F; 0x3000].
Lemma white_In : forall c, white_space c -> In c WHITE.
Proof. intros c H. unfold white_space in H. cbn [In WHITE]. lia. Qed.
Lemma trim_white : forall c k r, white_space c -> trim_start (S k) (utf8 c ++ r) = trim_start k r.
Proof. intros c k r H. apply white_In in H. repeat (destruct H as [<-|H]; [reflexivity|]). destruct H. Qed.
Lemma trim_encode : forall ws k e, Forall white_space ws -> (length (encode ws) <= k)%nat -> trim_start k (encode ws ++ 58 :: e) = 58 :: e.
Proof.
  induction ws as [|c ws IH]; intros k e F L.
  - destruct k; [reflexivity|]; destruct e as [|x [|y e]]; reflexivity.
  - inversion F; subst. unfold encode in *. cbn [map concat] in *. rewrite <- app_assoc. rewrite app_length in L.
    pose proof (utf8_nonempty c) as N. destruct k as [|k]; [destruct (utf8 c); [congruence|cbn in L; lia]|].
    rewrite trim_white by auto. apply IH; auto. destruct (utf8 c); [congruence|cbn in L; lia].
Qed.
Lemma trim_text : forall k l e, trim_start k l = 58 :: e -> exists ws, Forall white_space ws /\ l = encode ws ++ 58 :: e.
Proof.
  induction k as [|k IH]; intros l e H; [exists []; auto|].
  assert (K : forall c r, white_space c -> trim_start k r = 58 :: e -> exists ws, Forall white_space ws /\ utf8 c ++ r = encode ws ++ 58 :: e).
  { intros c r Hc Hr. destruct (IH _ _ Hr) as (ws & F & ->). exists (c :: ws). split; auto. unfold encode. cbn [map concat]. rewrite <- app_assoc. reflexivity. }
  assert (Z0 : l = 58 :: e -> exists ws, Forall white_space ws /\ l = encode ws ++ 58 :: e) by (intros ->; exists []; auto).
  cbn [trim_start] in H. destruct l as [|a r]; [discriminate|].
  destruct (between 9 a 13 || (a =? 32)) eqn:E1.
  { assert (Ha : white_space a /\ utf8 a = [a]).
    { apply orb_prop in E1 as [E1|E1]; [destruct (between_spec 9 a 13) as [Ha|]; [|discriminate]|apply Z.eqb_eq in E1].
      - split; [unfold white_space; lia|]. assert (a = 9 \/ a = 10 \/ a = 11 \/ a = 12 \/ a = 13) as [->|[->|[->|[->| ->]]]] by lia; reflexivity.
      - subst a. split; [unfold white_space; lia|reflexivity]. }
    destruct Ha as [Ha Eu]. specialize (K a r Ha H). rewrite Eu in K. exact K. }
  destruct r as [|b2 r2]; auto. destruct ((a =? 0xc2) && _) eqn:E2.
  { apply andb_prop in E2 as [A B]. apply Z.eqb_eq in A. subst a. apply orb_prop in B as [B|B]; apply Z.eqb_eq in B; subst b2.
    - apply (K 0x85 r2); auto. unfold white_space; lia.
    - apply (K 0xA0 r2); auto. unfold white_space; lia. }
  destruct r2 as [|c r3]; auto. match type of H with (if ?x then _ else _) = _ => destruct x eqn:E3 end; auto.
  assert (Hc : exists w, white_space w /\ utf8 w = [a; b2; c]).
  { rewrite !orb_true_iff, !andb_true_iff, !Z.eqb_eq in E3. destruct E3 as [[[E3|E3]|E3]|E3].
    - exists 0x1680. split; [unfold white_space; lia|]. destruct E3 as [[-> ->] ->]. reflexivity.
    - destruct E3 as [[-> ->] E3]. apply orb_prop in E3 as [E3|E3].
      + destruct (between_spec 0x80 c 0x8a) as [Hc|]; [|discriminate]. exists (0x2000 + (c - 0x80)). split; [unfold white_space; lia|].
        assert (In c [0x80; 0x81; 0x82; 0x83; 0x84; 0x85; 0x86; 0x87; 0x88; 0x89; 0x8a]) as I by (cbn [In]; lia).
        repeat (destruct I as [<-|I]; [reflexivity|]). destruct I.
      + apply zin_In in E3. destruct E3 as [<-|[<-|[<-|[]]]]; [exists 0x2028|exists 0x2029|exists 0x202F]; (split; [unfold white_space; lia|reflexivity]).
    - exists 0x205F. split; [unfold white_space; lia|]. destruct E3 as [[-> ->] ->]. reflexivity.
    - exists 0x3000. split; [unfold white_space; lia|]. destruct E3 as [[-> ->] ->]. reflexivity. }
  destruct Hc as (w & Hw & Eu). specialize (K w r3 Hw H). rewrite Eu in K. exact K.
Qed.
Lemma openers_strip : forall n l, trim_comment_openers (concat (repeat [40; 42] n) ++ l) = trim_comment_openers l.
Proof. induction n as [|n IH]; intros l; auto. cbn [repeat concat app trim_comment_openers]. cbn [Z.eqb Pos.eqb andb]. apply IH. Qed.
Lemma openers_text : forall n l, (length l <= n)%nat -> exists k, l = concat (repeat [40; 42] k) ++ trim_comment_openers l.
Proof.
  induction n as [|n IH]; intros l L; [destruct l; [exists O; auto|cbn in L; lia]|].
  destruct l as [|a [|b r]]; try (exists O; reflexivity). cbn [trim_comment_openers]. destruct ((a =? 40) && (b =? 42)) eqn:E; [|exists O; reflexivity].
  apply andb_prop in E as [A B]. apply Z.eqb_eq in A, B. subst. cbn in L. destruct (IH r ltac:(lia)) as [k Ek]. exists (S k). cbn [repeat concat app]. congruence.
Qed.
Lemma heading_iff : forall text, match trim_start (length (trim_comment_openers text)) (trim_comment_openers text) with c :: _ => c =? 58 | [] => false end = true <->
  exists n ws e, Forall white_space ws /\ text = concat (repeat [40; 42] n) ++ encode ws ++ 58 :: e.
Proof.
  intros text. split.
  - destruct (trim_start _ _) as [|c e] eqn:E; [discriminate|]. intros H. apply Z.eqb_eq in H. subst c. apply trim_text in E as (ws & F & E).
    destruct (openers_text (length text) text (le_n _)) as [n En]. exists n, ws, e. split; auto. rewrite <- E. exact En.
  - intros (n & ws & e & F & ->). rewrite openers_strip.
    assert (E : trim_comment_openers (encode ws ++ 58 :: e) = encode ws ++ 58 :: e).
    { destruct ws as [|c ws]; [destruct e; reflexivity|]. inversion F; subst. unfold encode. cbn [map concat]. rewrite <- app_assoc.
      apply white_In in H1. repeat (destruct H1 as [<-|H1]; [destruct (concat (map utf8 ws) ++ 58 :: e); reflexivity|]). destruct H1. }
    rewrite E, trim_encode; auto. rewrite app_length. lia.
Qed.

Lemma is_set_iff : forall t, is_set t = true <-> assigns t.
Proof. intros t. unfold is_set, assigns. rewrite orb_true_iff, !Z.eqb_eq. tauto. Qed.
Lemma directive_iff : forall s, is_top_level_directive s = true <-> In s directives.
Proof.
  intros s. unfold is_top_level_directive. replace DIRECTIVES with directives by (vm_compute; reflexivity). rewrite existsb_exists. split.
  - intros (x & I & E). apply zlist_eqb_eq in E. subst. auto.
  - intros I. exists s. split; auto. apply zlist_eqb_eq. auto.
Qed.
Lemma statement_start_iff : forall ts, statement_start ts = true <-> begins_statement ts.
Proof.
  intros [|t r]; [cbn; split; [discriminate|intros H; inversion H]|]. cbn [statement_start]. split.
  - destruct ((t_kind t =? TK_Symbol) && match r with [] => false | u :: _ => t_kind u =? TK_OpenSquare end) eqn:E1.
    { apply andb_prop in E1 as [A B]. destruct r as [|u r]; [discriminate|]. apply Z.eqb_eq in A, B. cbn [tl]. rewrite orb_true_iff, directive_iff, existsb_exists.
      intros [H|(x & I & H)]; [apply begins_directive; auto|]. apply begins_definition; auto. apply Exists_exists. exists x. split; auto. apply is_set_iff; exact H. }
    match goal with |- (if ?x then _ else _) = true -> _ => destruct x eqn:E2 end.
    { apply andb_prop in E2 as [A B]. destruct r as [|u r]; [discriminate|]. apply Z.eqb_eq in A. intros _. apply begins_set; auto. apply is_set_iff; exact B. }
    match goal with |- (if ?x then _ else _) = true -> _ => destruct x eqn:E3 end.
    { apply andb_prop in E3 as [A B]. destruct r as [|u r]; [discriminate|]. apply Z.eqb_eq in A. intros _. apply begins_rest; auto. apply is_set_iff; exact B. }
    destruct (Z.eqb_spec (t_kind t) TK_Comment) as [Ec|]; [|discriminate]. cbv zeta. rewrite heading_iff. intros (n & ws & e & F & E). eapply begins_heading; eauto.
  - intros H. inversion H as [f b r' K1 K2 K3 E|f b r' K1 K2 K3 E|f a r' K1 K2 E|f a r' K1 K2 E|f r' n ws e K1 K2 K3 E]; subst.
    + rewrite K1, K2. cbn [Z.eqb Pos.eqb TK_Symbol TK_OpenSquare andb tl]. rewrite (proj2 (directive_iff _) K3). reflexivity.
    + rewrite K1, K2. cbn [Z.eqb Pos.eqb TK_Symbol TK_OpenSquare andb tl]. apply orb_true_iff. right. apply existsb_exists. apply Exists_exists in K3 as (x & I & X).
      exists x. split; auto. apply is_set_iff; auto.
    + rewrite K1, (proj2 (is_set_iff a) K2). destruct K2 as [K2|K2]; rewrite K2; reflexivity.
    + rewrite K1, (proj2 (is_set_iff a) K2). destruct K2 as [K2|K2]; rewrite K2; reflexivity.
    + rewrite K1. cbn [Z.eqb Pos.eqb TK_Symbol TK_CloseSquare TK_Comment andb]. cbv zeta. rewrite heading_iff. eauto.
Qed.
Lemma trivia_b : forallb (fun k => Bool.eqb (isTrivia k) (zin k [TK_ToplevelNewline; TK_InternalNewline; TK_Whitespace; TK_Comment])) LEX_KINDS = true.
Proof. vm_compute. reflexivity. Qed.
Lemma counts_iff : forall t, lexable (t_kind t) = true -> (exists a b, sp_start (t_src t) = LineCol a b) -> counts_for_statement t = true <-> looked_at t.
Proof.
  intros t L (a & b & E). unfold counts_for_statement, looked_at. rewrite E. pose proof (lexable_forall _ trivia_b _ L) as K. cbn beta in K. apply eqb_prop in K. rewrite K.
  destruct (Z.eqb_spec (t_kind t) TK_Comment) as [Ek|Nk]; [tauto|]. destruct (zin (t_kind t) _) eqn:Z.
  - apply zin_In in Z. assert (trivia_kind (t_kind t)). { unfold trivia_kind. cbn [In] in Z. intuition congruence. }
    split; [intros H1; apply Z.eqb_eq in H1; subst; right; right; eauto|]. intros [?|[?|[l X]]]; try tauto. injection X as -> ->. reflexivity.
  - split; auto. intros _. right. left. intros H. assert (zin (t_kind t) [TK_ToplevelNewline; TK_InternalNewline; TK_Whitespace; TK_Comment] = true); [|congruence].
    apply zin_In. unfold trivia_kind in H. cbn [In]. intuition congruence.
Qed.
Lemma raw_starts : forall o b input ts s', o_conv o = ConvLineColumn -> 0 < o_tab_width o -> tokenize_raw o b input = Ok (ts, s') ->
  Forall (fun t => exists a b, sp_start (t_src t) = LineCol a b) ts.
Proof.
  intros o b input ts s' Ec Ht E. destruct (tokenize_tiles _ _ _ _ _ Ht E) as (before & gs & tail & _ & _ & T). rewrite Ec in T. clear - T.
  revert T. generalize (chars_of before). revert gs. induction ts as [|t ts IH]; intros [|g gs] bf T; cbn in T; try contradiction; constructor.
  - destruct T as [[_ T] _]. rewrite T. cbn. eauto.
  - destruct T as [_ T]. eapply IH; eauto.
Qed.
Lemma only_filter : forall ts, Forall (fun t => counts_for_statement t = true <-> looked_at t) ts -> forall ts', only_looked_at ts ts' <-> ts' = filter counts_for_statement ts.
Proof.
  induction ts as [|t ts IH]; intros F ts'.
  - split; [intros H; inversion H; auto|intros ->; constructor].
  - inversion F as [|? ? F1 F2]; subst. specialize (IH F2). cbn [filter]. split.
    + intros H. inversion H as [|? ? ? A B|? ? ? A B]; subst.
      * rewrite (proj2 F1 A). f_equal. apply IH. auto.
      * destruct (counts_for_statement t) eqn:E; [exfalso; apply A; tauto|]. apply IH. auto.
    + intros ->. destruct (counts_for_statement t) eqn:E; [apply only_keep; [tauto|apply IH; auto]|]. apply only_drop; [|apply IH; auto].
      intros H. apply F1 in H. discriminate.
Qed.

(** what the program answers about a line *)
Lemma new_statement : forall k o c, well_formed_no_bom c -> ~ has_surrogate_escape c -> no_break c ->
  exists b, is_new_statement_line (line_tokens (S k) o) c = Ok b /\ (b = true <-> statement_line (options_default o) c).
Proof.
  intros k o c W N B. destruct (line_tokens_raw k o c W N B) as (ts & s' & E & E2). exists (statement_start (filter counts_for_statement ts)).
  unfold is_new_statement_line. rewrite E2. split; [reflexivity|]. rewrite statement_start_iff. unfold statement_line.
  assert (Ht : 0 < o_tab_width (options_default o)) by reflexivity. pose proof (raw_lexable _ _ _ _ _ Ht E) as L. pose proof (raw_starts (options_default o) _ _ _ _ eq_refl Ht E) as S.
  assert (F : Forall (fun t => counts_for_statement t = true <-> looked_at t) ts).
  { clear - L S. induction L; inversion S; subst; constructor; auto. apply counts_iff; auto. }
  split.
  - intros H. exists ts, s', (filter counts_for_statement ts). split; auto. split; auto. apply only_filter; auto.
  - intros (us & u & us' & E3 & O & H). rewrite E in E3. injection E3 as <- <-. apply only_filter in O; auto. subst. auto.
Qed.

Lemma cut_ext : forall P Q ls r, (forall l, In l ls -> P (fst l) <-> Q (fst l)) -> cut P ls r -> cut Q ls r.
Proof.
  intros P Q ls r H C.
  assert (St : forall others, (forall l, In l others -> P (fst l) <-> Q (fst l)) -> stops P others -> stops Q others).
  { intros [|x others] K; cbn; auto. apply K. left; auto. }
  assert (Fn : forall l : list (list Z * list Z), (forall x, In x l -> P (fst x) <-> Q (fst x)) -> Forall (fun x => ~ P (fst x)) l -> Forall (fun x => ~ Q (fst x)) l).
  { intros l K F. rewrite Forall_forall in *. intros x I X. apply (F x I). apply K; auto. }
  inversion C as [c n others X Y|c n blanks others X X1 X2 X3 Y Y'|c1 n1 mid kept c n g m blanks others X X1 X2 X3 X4 Y Y']; subst.
  - constructor. apply St; auto. intros; apply H; right; auto.
  - constructor; auto; [apply Fn|apply St]; auto; intros; apply H; right; apply in_or_app; auto.
  - eapply cut_block; eauto; [apply Fn|apply St]; auto; intros x I; apply H; right; apply in_or_app.
    + apply in_app_or in I as [I|[I|I]]; [left; auto|right; left; auto|right; right; apply in_or_app; auto].
    + right. right. apply in_or_app. auto.
Qed.


Theorem reparse_bytes : forall o b input ts s' pre t ls, o_conv o = ConvLineColumn -> 0 < o_tab_width o -> well_formed_no_bom input -> ~ has_surrogate_escape input ->
  tokenize_raw o b input = Ok (ts, s') -> ts = pre ++ [t] -> unterminated_kind (t_kind t) -> lines_of (t_text t) ls ->
  exists r, cut (statement_line (options_default o)) ls r /\
  match r with
  | None => tokenize_bytes o b input = Panic
  | Some (kept, reported) => exists t', tokenize_bytes o b input = Ok (TOk (pre ++ [t'])) /\
      t_kind t' = t_kind t /\ t_text t' = kept /\ t_start t' = t_start t /\ sp_start (t_src t') = sp_start (t_src t) /\
      forall w cs, input = w ++ t_text t -> Forall scalar cs -> ~ In BOM_CHAR cs -> encode cs = w ++ reported ->
        sp_end (t_src t') = position_of (o_conv o) (o_tab_width o) (fold_crlf cs)
  end.
Proof.
  intros o b input ts s' pre t ls Ec Ht Wf Ns E Ets Uk L.
  pose proof (raw_lexable _ _ _ _ _ Ht E) as Lx. assert (Lt : lexable (t_kind t) = true) by (rewrite Ets in Lx; apply Forall_app in Lx as [_ Lx]; inversion Lx; auto).
  assert (U : unterminated t = true) by (apply unterminated_iff; auto). assert (U' : isUnterminated (t_kind t) = true) by (rewrite <- unterminated_open; auto).
  destruct (raw_open _ _ _ _ _ _ _ _ Ht E Ets U') as (_ & _ & _ & _ & cs & l & ds & l2 & M & _). destruct (moves_clean _ _ _ _ _ _ M Wf) as [Wt (w & Ew & _)].
  assert (Hl : forall c n, In (c, n) ls -> exists sb, is_new_statement_line (line_tokens 1 o) c = Ok sb /\ (sb = true <-> statement_line (options_default o) c)).
  { intros c n I. apply new_statement.
    - pose proof (clean_lines _ _ L Wt) as F. rewrite Forall_forall in F. apply (F _ I).
    - apply in_split in I as (x & y & ->). destruct (lines_split _ _ L x c n y eq_refl) as (Et & _). rewrite Ew, Et in Ns. 
      apply (surrogate_sub (w ++ text_of x) c (n ++ text_of y)). rewrite <- app_assoc. exact Ns.
    - apply in_split in I as (x & y & ->). destruct (lines_split _ _ L x c n y eq_refl) as (_ & Nb & _). exact Nb. }
  set (starts := fun c => match is_new_statement_line (line_tokens 1 o) c with Ok b => b | _ => false end).
  destruct (reparse_cut (line_tokens 1 o) starts o b input ts s' pre t Ec Ht Wf E Ets U' ls L) as (r & C & P).
  { intros c n I. destruct (Hl c n) as (sb & Es & _). { destruct ls; [destruct I|right; auto]. } unfold starts. rewrite Es. reflexivity. }
  exists r. split.
  { eapply cut_ext; [|exact C]. intros [c n] I. cbn [fst]. destruct (Hl c n I) as (sb & Es & Hs). unfold starts. rewrite Es. exact Hs. }
  assert (F : Forall (fun t => unterminated t = false) pre).
  { destruct (raw_cases _ _ _ _ _ Ht E) as [F|(p & u & Eu & F & _)].
    - exfalso. rewrite Ets in F. apply Forall_app in F as [_ F]. inversion F. congruence.
    - rewrite Ets in Eu. apply app_inj_tail in Eu as [-> _]. auto. }
  unfold tokenize_bytes, tokenize_depth. rewrite (bytes_eq 1 _ _ _ _ _ Ht Wf E). rewrite Ets, map_res_last by auto.
  destruct r as [[kept reported]|].
  - destruct P as (t' & -> & P). exists t'. split; [reflexivity|exact P].
  - rewrite P. reflexivity.
Qed.

Lemma reparse_none : forall o b input ts s', 0 < o_tab_width o -> well_formed_no_bom input -> tokenize_raw o b input = Ok (ts, s') ->
  Forall (fun t => ~ unterminated_kind (t_kind t)) ts -> tokenize_bytes o b input = Ok (TOk ts).
Proof.
  intros o b input ts s' Ht Wf E F. unfold tokenize_bytes, tokenize_depth. rewrite (bytes_eq 1 _ _ _ _ _ Ht Wf E), map_res_same; auto.
  pose proof (raw_lexable _ _ _ _ _ Ht E) as L. clear - F L. induction L; inversion F; subst; constructor; auto.
  destruct (unterminated x) eqn:U; auto. exfalso. apply unterminated_iff in U; auto.
Qed.
Lemma reparse_malformed : forall o b input ts s', 0 < o_tab_width o -> tokenize_raw o b input = Ok (ts, s') -> ~ well_formed_no_bom input ->
  exists e, tokenize_bytes o b input = Ok (TErr e).
Proof.
  intros o b input ts s' Ht E N. unfold tokenize_bytes, tokenize_depth. cbn [tokenize_bytes_n]. rewrite E.
  destruct (l_flag (lg s')) as [e|] eqn:Ef; [eauto|]. exfalso. apply N. apply (raw_flag _ _ _ _ _ Ht E). auto.
Qed.

(** ** There is one way to cut *)
Lemma block_unique : forall (P : list Z -> Prop) (a b x y : list (list Z * list Z)), a ++ x = b ++ y ->
  Forall (fun l => ~ P (fst l)) a -> Forall (fun l => ~ P (fst l)) b -> stops P x -> stops P y -> a = b /\ x = y.
Proof.
  induction a as [|p a IH]; intros b x y E Fa Fb Sx Sy.
  - destruct b as [|q b]; auto. exfalso. cbn in E. subst x. cbn in Sx. inversion Fb. auto.
  - destruct b as [|q b]; [exfalso; cbn in E; subst y; cbn in Sy; inversion Fa; auto|]. injection E as <- E. inversion Fa; inversion Fb; subst.
    destruct (IH b x y E) as [-> ->]; auto.
Qed.
Lemma blanks_unique : forall (mid mid' : list (list Z * list Z)) g m blanks g' m' blanks', mid ++ (g, m) :: blanks = mid' ++ (g', m') :: blanks' -> g <> [] -> g' <> [] ->
  Forall blank blanks -> Forall blank blanks' -> mid = mid' /\ g = g' /\ m = m' /\ blanks = blanks'.
Proof.
  induction mid as [|p mid IH]; intros mid' g m blanks g' m' blanks' E Hg Hg' F F'.
  - destruct mid' as [|q mid']; [injection E as -> -> ->; auto|]. exfalso. injection E as <- E. subst blanks. apply Forall_app in F as [_ F]. inversion F; auto.
  - destruct mid' as [|q mid']; [exfalso; injection E as -> E; subst blanks'; apply Forall_app in F' as [_ F']; inversion F'; auto|].
    injection E as <- E. destruct (IH _ _ _ _ _ _ _ E Hg Hg' F F') as (-> & -> & -> & ->). auto.
Qed.
Lemma cut_unique : forall P ls r r', cut P ls r -> cut P ls r' -> r = r'.
Proof.
  assert (Bn : forall (l mid : list (list Z * list Z)) g m b, l = mid ++ (g, m) :: b -> g <> [] -> Forall blank l -> False).
  { intros l mid g m b -> Hg F. apply Forall_app in F as [_ F]. inversion F; auto. }
  intros P ls r r' H H'.
  inversion H as [c n others X Y|c n blanks others X X1 X2 X3 Y Y'|c1 n1 mid kept c n g m blanks others X X1 X2 X3 X4 Y Y']; subst;
  inversion H' as [c' n' others' Z|c' n' blanks' others' Z Z1 Z2 Z3 W W'|c2 n2 mid' kept' c' n' g' m' blanks' others' Z Z1 Z2 Z3 Z4 W W']; subst; auto.
  - exfalso. destruct (block_unique P [] blanks' (blanks' ++ others') others' eq_refl) as [E _]; auto.
  - exfalso. destruct (block_unique P [] (mid' ++ (g', m') :: blanks') (mid' ++ (g', m') :: blanks' ++ others') others') as [E _]; auto; [rewrite <- app_assoc; reflexivity|]. destruct mid'; discriminate.
  - exfalso. destruct (block_unique P [] blanks (blanks ++ others) others eq_refl) as [E _]; auto.
  - exfalso. destruct (block_unique P blanks (mid' ++ (g', m') :: blanks') others others') as [E _]; auto; [rewrite <- app_assoc; auto|]. eapply (Bn blanks); eauto.
  - exfalso. destruct (block_unique P [] (mid ++ (g, m) :: blanks) (mid ++ (g, m) :: blanks ++ others) others) as [E _]; auto; [rewrite <- app_assoc; reflexivity|]. destruct mid; discriminate.
  - exfalso. destruct (block_unique P blanks' (mid ++ (g, m) :: blanks) others' others) as [E _]; auto; [rewrite <- app_assoc; auto|]. eapply (Bn blanks'); eauto.
  - destruct (block_unique P (mid ++ (g, m) :: blanks) (mid' ++ (g', m') :: blanks') others others') as [E _]; auto; [rewrite <- !app_assoc; cbn [app]; auto|].
    destruct (blanks_unique _ _ _ _ _ _ _ _ E X1 Z1 X2 Z2) as (-> & -> & -> & ->). rewrite X in Z. apply app_inj_tail in Z as [-> Z]. injection Z as -> ->. reflexivity.
Qed.
Lemma cut_prefix : forall P ls kept reported, cut P ls (Some (kept, reported)) -> (exists e, joined ls = kept ++ e) /\ exists e, joined ls = reported ++ e.
Proof.
  intros P ls kept reported H. inversion H as [c n others X Y|c n blanks others X X1 X2 X3 Y Y'|c1 n1 mid kp c n g m blanks others X X1 X2 X3 X4 Y Y']; subst.
  - unfold joined. cbn [map concat fst snd]. rewrite <- app_assoc. eauto.
  - unfold joined. rewrite app_comm_cons, X, !map_app, !concat_app. cbn [map concat fst snd]. rewrite app_nil_r, <- !app_assoc.
    split; eexists; rewrite <- ?app_assoc; reflexivity.
Qed.
Lemma unterminated_last : forall o b input ts s' pre t post,
  0 < o_tab_width o -> tokenize_raw o b input = Ok (ts, s') -> ts = pre ++ t :: post -> unterminated_kind (t_kind t) -> post = [].
Proof.
  intros o b input ts s' pre t post Ht E Ets U. assert (U' : isUnterminated (t_kind t) = true) by (destruct U as [->|[->|[->| ->]]]; reflexivity).
  destruct (raw_open _ _ _ _ _ _ _ _ Ht E Ets U') as (-> & _). reflexivity.
Qed.
Lemma character_index_aborts : exists o b input ts s',
  o_conv o = ConvCharacterIndex /\ 0 < o_tab_width o /\ well_formed_no_bom input /\ ~ has_surrogate_escape input /\ no_break input /\
  tokenize_raw o b input = Ok (ts, s') /\ tokenize_bytes o b input = Panic.
Proof.
  set (o := mkopts ConvCharacterIndex 4 true true true (fun _ => false)). set (input := [0xc3; 0xa9; 34; 97]).
  assert (Ns : ~ has_surrogate_escape input).
  { intros (p & q & E & (ds & r & _ & H & _)). assert (I : In 92 input) by (rewrite E; apply in_or_app; right; destruct H as [[-> _]|[-> _]]; left; auto).
    cbn in I. lia. }
  assert (Ht : 0 < o_tab_width o) by reflexivity.
  destruct (tokenize_total o NotScript input Ht Ns) as (ts & s' & E). exists o, NotScript, input, ts, s'. split; [reflexivity|]. split; [exact Ht|].
  split. { exists [0xe9; 34; 97]. split; [repeat constructor; unfold scalar; lia|]. split; [cbn; unfold BOM_CHAR; lia|reflexivity]. }
  split; [exact Ns|]. split; [split; cbn; lia|]. split; [exact E|].
  vm_compute. reflexivity.
Qed.
