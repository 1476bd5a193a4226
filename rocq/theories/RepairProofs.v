(** Proofs about the public entry points: parsing with the repair of incomplete input. *)
From Coq Require Import ZArith List Bool Lia.
From Verif Require Import Base Source GenTokenKind GenPrec GenOps GenParselets TokenKind Parselets Tokenizer Cst SpecCst CstProofs Parser SpecParser ErrorReparse SpecParse
  LongNames Iter Utils ParserLogic ParserProofs ParserTheorems SpecReparse ParserRepair SpecRepair.
Import ListNotations.
Local Open Scope Z_scope.

Lemma picked_refl : forall A (l : list A), picked l l. Proof. intros A l. induction l; constructor; auto. Qed.
Lemma picked_trans : forall A (b c : list A), picked b c -> forall a, picked a b -> picked a c.
Proof. intros A b c H. induction H as [|x b c H IH|x b c H IH]; intros a K; auto; [|constructor; auto]. inversion K; subst; constructor; auto. Qed.
Lemma picked_app : forall A (a b c d : list A), picked a b -> picked c d -> picked (a ++ c) (b ++ d).
Proof. intros A a b c d H K. induction H; cbn; auto; constructor; auto. Qed.
Lemma picked_In : forall A (a b : list A) x, picked a b -> In x a -> In x b.
Proof. intros A a b x H. induction H; cbn; intuition. Qed.

Definition OPEN_KINDS : list Z := [TK_Error_UnterminatedComment; TK_Error_UnterminatedString; TK_Error_UnterminatedFileString; TK_Error_UnterminatedLinearSyntaxBlob].
Definition cuttable (k : Z) : bool := isError k && isUnterminated k.
Lemma cut_b : forallb (fun k => Bool.eqb (cuttable k) (zin k OPEN_KINDS)) LEAF_KINDS = true.
Proof. vm_compute. reflexivity. Qed.
Lemma zin_in : forall k l, zin k l = true <-> In k l.
Proof. intros k l. unfold zin. rewrite existsb_exists. split; [intros (x & H & E); apply Z.eqb_eq in E; subst; auto|intros H; exists k; split; auto; apply Z.eqb_refl]. Qed.
Lemma open_kinds : forall k, In k OPEN_KINDS <-> unterminated_kind k.
Proof. intros k. unfold unterminated_kind, OPEN_KINDS. cbn [In]. intuition congruence. Qed.
Lemma unterminated_leaf : forall t, In (t_kind t) LEAF_KINDS -> (unterminated t = true <-> unterminated_kind (t_kind t)).
Proof.
  intros t H. pose proof cut_b as B. rewrite forallb_forall in B. specialize (B _ H). apply eqb_prop in B. change (unterminated t) with (cuttable (t_kind t)).
  rewrite B, zin_in. apply open_kinds.
Qed.

(** ** Tokens kept by the repair of groups *)
Section Repair.
Variable tokenize_line : list Z -> res (list token).
Variable input : list Z.
Variable tw : Z.

Lemma overlap_nodes : forall better l acc fixed, fold_left (fun r m => overlapping better m r) l acc = Ok fixed ->
  exists a kept, acc = Ok a /\ fixed = a ++ map Tok kept /\ picked kept (flat_map (fun n => match n with Tok t => [t] | _ => [] end) l).
Proof.
  intros better. induction l as [|n l IH]; intros acc fixed H; cbn [fold_left flat_map] in *.
  - exists fixed, []. split; auto. split; [rewrite app_nil_r; reflexivity|constructor].
  - destruct (IH _ _ H) as (a & kept & E & -> & K). destruct n as [t| | | | |]; cbn [overlapping] in E; try (exists a, kept; auto; fail).
    destruct acc as [a0| |]; cbn [rbind] in E; try discriminate. destruct (span_overlaps better (t_src t)) as [v| |]; cbn [rmap rbind] in E; try discriminate.
    exists a0. destruct v; injection E as <-.
    + exists (t :: kept). split; auto. split; [rewrite <- app_assoc; reflexivity|]. constructor. auto.
    + exists kept. split; auto. split; auto. constructor. auto.
Qed.
Lemma nodes_toks_flat : forall n, flat_map (fun n => match n with Tok t => [t] | _ => [] end) (nodes n) = toks n.
Proof.
  apply cst_ind'. intros n IH. rewrite nodes_eq. cbn [flat_map].
  assert (E : flat_map (fun n => match n with Tok t => [t] | _ => [] end) (flat_map nodes (children n)) = flat_map toks (children n)).
  { induction IH as [|c l Hc Hl IHl]; auto. cbn [flat_map]. rewrite flat_map_app, Hc, IHl. reflexivity. }
  rewrite E. destruct (is_tok_dec n) as [(t & ->)|Hn]; [reflexivity|]. rewrite (toks_eq n Hn). destruct n; auto. exfalso. eapply Hn. reflexivity.
Qed.
Lemma fold_visit_nodes : forall S (f : cst -> S -> S) l s, fold_left (fun s n => visit f n s) l s = fold_left (fun s m => f m s) (flat_map nodes l) s.
Proof. intros S f l. induction l as [|n l IH]; intros s; cbn [fold_left flat_map]; auto. rewrite fold_left_app, visit_nodes, IH. reflexivity. Qed.
Lemma repair_picks : forall op ch fixed, repair_group tokenize_line input tw op ch = Ok fixed -> exists kept, fixed = map Tok kept /\ picked kept (leaves ch).
Proof.
  intros op ch fixed H. unfold repair_group in H. destruct (negb (utf8_valid input)); try discriminate.
  destruct (sources_between (map get_source ch)) as [src| |]; cbn [rbind] in H; try discriminate.
  destruct (first_chunk_and_last_good_line tokenize_line input tw src) as [[[u v] better]| |]; cbn [rbind] in H; try discriminate.
  rewrite fold_visit_nodes in H. destruct (overlap_nodes _ _ _ _ H) as (a & kept & E & -> & K). injection E as <-. exists kept. split; auto.
  replace (leaves ch) with (flat_map (fun n => match n with Tok t => [t] | _ => [] end) (flat_map nodes ch)); auto.
  unfold leaves. clear. induction ch as [|n l IH]; auto. cbn [flat_map]. rewrite flat_map_app, nodes_toks_flat, IH. reflexivity.
Qed.

Notation md := (mended (repair_group tokenize_line input tw)).
Lemma leaves_toks : forall kept, leaves (map Tok kept) = kept.
Proof. intros kept. unfold leaves. induction kept as [|t l IH]; cbn [map flat_map toks]; auto. rewrite IH. reflexivity. Qed.
Lemma mended_ind' : forall (Q : cst -> cst -> Prop),
  (forall t, Q (Tok t) (Tok t)) ->
  (forall k op ch ch', Forall2 Q ch ch' -> Q (Op k op ch) (Op k op ch')) ->
  (forall e ch ch', Forall2 Q ch ch' -> Q (SynErr e ch) (SynErr e ch')) ->
  (forall l l' m op ch ch', Forall2 Q l l' -> Forall2 Q ch ch' -> Q (Call (Concrete l) m op ch) (Call (Concrete l') m op ch')) ->
  (forall op ch ch' kept, Forall2 Q ch ch' -> picked kept (leaves ch') -> Q (Op KGroupMissingCloser op ch) (Op KGroupMissingCloser op (map Tok kept))) ->
  (forall l l' op' ch ch' kept, Forall2 Q l l' -> Forall2 Q ch ch' -> picked kept (leaves ch') ->
    Q (Call (Concrete l) true op' ch) (Call (Concrete l') true op' (map Tok kept))) ->
  forall n n', md n n' -> Q n n'.
Proof.
  intros Q H1 H2 H3 H4 H5 H6. fix IH 3. intros n n' H.
  assert (K : forall a b, Forall2 md a b -> Forall2 Q a b).
  { intros a b F. induction F as [|x y a b Hxy F IHF]; constructor; auto. }
  destruct H as [t|k op ch ch' Hc|e ch ch' Hc|l l' m op ch ch' Hl Hc|op ch ch' fixed Hc Hf|l l' op op' ch ch' fixed Hl Hc Ho Hf]; auto.
  - apply repair_picks in Hf as (kept & -> & P). eauto.
  - apply repair_picks in Hf as (kept & -> & P). eauto.
Qed.

Lemma picked_forall2 : forall l l', Forall2 (fun n n' => picked (toks n') (toks n)) l l' -> picked (leaves l') (leaves l).
Proof. intros l l' F. unfold leaves. induction F; cbn [flat_map]; [constructor|]. apply picked_app; auto. Qed.
Lemma mended_toks : forall n n', md n n' -> picked (toks n') (toks n).
Proof.
  apply (mended_ind' (fun n n' => picked (toks n') (toks n))); intros; try (rewrite !toks_eq by discriminate; cbn [children]; apply picked_forall2; auto; fail).
  - apply picked_refl.
  - rewrite !toks_eq by discriminate. cbn [children]. rewrite !flat_map_app. apply picked_app; apply picked_forall2; auto.
  - rewrite !toks_eq by discriminate. cbn [children]. change (picked (leaves (map Tok kept)) (leaves ch)). rewrite leaves_toks.
    eapply picked_trans; [apply picked_forall2; eassumption|auto].
  - rewrite !toks_eq by discriminate. cbn [children]. rewrite !flat_map_app. apply picked_app; [apply picked_forall2; auto|].
    change (picked (leaves (map Tok kept)) (leaves ch)). rewrite leaves_toks. eapply picked_trans; [apply picked_forall2; eassumption|auto].
Qed.

(** ** The final pass over the tokens *)
Definition settle (ok : bool) (n : cst) : res cst := if ok then map_tokens (reparse_if tokenize_line input tw) n else Ok n.

Lemma reparse_kind : forall t t', reparse_token tokenize_line input tw t = Ok t' -> t_kind t' = t_kind t.
Proof.
  intros t t' H. unfold reparse_token in H. destruct (first_chunk_and_last_good_line _ _ _ _) as [[[chunk i] better]| |]; cbn [rbind] in H; try discriminate.
  destruct (sp_start better), (sp_end better); try discriminate.
  - destruct chunk as [|x r]; try discriminate. destruct (index_columns _ _ _ _) as [ix| |]; cbn [rbind] in H; try discriminate.
    destruct (match r with [] => _ | _ => _ end) as [bb| |]; cbn [rbind] in H; try discriminate. destruct (slice _ _ _) as [text| |]; cbn [rmap rbind] in H; try discriminate.
    injection H as <-. reflexivity.
  - destruct (to_rust_range _) as [[aa bb]| |]; cbn [rbind] in H; try discriminate. destruct (slice _ _ _) as [text| |]; cbn [rmap rbind] in H; try discriminate.
    injection H as <-. reflexivity.
Qed.
Lemma reparse_tok : forall t n, In (t_kind t) LEAF_KINDS -> map_tokens (reparse_if tokenize_line input tw) (Tok t) = Ok n -> patched (Tok t) n.
Proof.
  intros t n K H. cbn [map_tokens] in H. unfold reparse_if in H. destruct (unterminated t) eqn:U.
  - destruct (reparse_token tokenize_line input tw t) as [t'| |] eqn:E; try discriminate. injection H as <-. apply patched_cut; [apply unterminated_leaf; auto|eapply reparse_kind; eauto].
  - injection H as <-. constructor.
Qed.
Lemma map_res_forall2 : forall A B (f : A -> res B) l l', map_res f l = Ok l' -> Forall2 (fun a b => f a = Ok b) l l'.
Proof.
  intros A B f. induction l as [|a l IH]; intros l' H; cbn [map_res] in H.
  - injection H as <-. constructor.
  - destruct (f a) as [b| |] eqn:E; cbn [rbind] in H; try discriminate. destruct (map_res f l) as [m| |] eqn:E2; cbn [rmap rbind] in H; try discriminate.
    injection H as <-. constructor; auto.
Qed.
Definition leafk (ts : list token) : Prop := Forall (fun t => In (t_kind t) LEAF_KINDS) ts.
Lemma settle_list : forall l m l', Forall2 (fun n n' => forall n'', leafk (toks n) -> map_tokens (reparse_if tokenize_line input tw) n' = Ok n'' -> patched n n'') l m ->
  leafk (leaves l) -> map_res (map_tokens (reparse_if tokenize_line input tw)) m = Ok l' -> Forall2 patched l l'.
Proof.
  intros l m l' F. revert l'. induction F as [|n n' l m Hn F IH]; intros l' K H; cbn [map_res] in H.
  - injection H as <-. constructor.
  - destruct (map_tokens _ n') as [b| |] eqn:E; cbn [rbind] in H; try discriminate. destruct (map_res _ m) as [m'| |] eqn:E2; cbn [rmap rbind] in H; try discriminate.
    injection H as <-. unfold leaves in K. cbn [flat_map] in K. apply Forall_app in K as [K1 K2]. constructor; auto.
Qed.
Lemma settle_toks : forall kept l', leafk kept -> map_res (map_tokens (reparse_if tokenize_line input tw)) (map Tok kept) = Ok l' -> Forall2 patched (map Tok kept) l'.
Proof.
  intros kept l' K H. eapply settle_list; [|rewrite leaves_toks; auto|exact H]. clear. induction kept as [|t l IH]; cbn [map]; constructor; auto.
  intros n'' K H. inversion K; subst. apply reparse_tok; auto.
Qed.
Lemma all_leaves : forall l, all_tokens l (leaves l). Proof. intros l. apply all_tokens_leaves. reflexivity. Qed.
Lemma leafk_picked : forall a b, picked a b -> leafk b -> leafk a.
Proof. intros a b H K. apply Forall_forall. intros x Hx. unfold leafk in K. rewrite Forall_forall in K. apply K. eapply picked_In; eauto. Qed.

Lemma mended_settled : forall n n', md n n' -> forall n'', leafk (toks n) -> map_tokens (reparse_if tokenize_line input tw) n' = Ok n'' -> patched n n''.
Proof.
  intros n n' H.
  assert (G : picked (toks n') (toks n) /\ forall n'', leafk (toks n) -> map_tokens (reparse_if tokenize_line input tw) n' = Ok n'' -> patched n n'').
  2:{ apply G. }
  revert n n' H.
  assert (S1 : forall l l', Forall2 (fun n n' => picked (toks n') (toks n) /\ forall n'', leafk (toks n) -> map_tokens (reparse_if tokenize_line input tw) n' = Ok n'' -> patched n n'') l l' ->
    picked (leaves l') (leaves l) /\ forall l'', leafk (leaves l) -> map_res (map_tokens (reparse_if tokenize_line input tw)) l' = Ok l'' -> Forall2 patched l l'').
  { intros l l' F. split.
    - apply picked_forall2. clear - F. induction F as [|? ? ? ? [? ?]]; constructor; auto.
    - intros l'' K H. eapply settle_list; eauto. clear - F. induction F as [|? ? ? ? [? ?]]; constructor; auto. }
  apply (mended_ind' (fun n n' => picked (toks n') (toks n) /\ forall n'', leafk (toks n) -> map_tokens (reparse_if tokenize_line input tw) n' = Ok n'' -> patched n n'')).
  - intros t. split; [apply picked_refl|]. intros n'' K H. inversion K; subst. apply reparse_tok; auto.
  - intros k op ch ch' F. destruct (S1 _ _ F) as (P1 & P2). split; [rewrite !toks_eq by discriminate; exact P1|]. intros n'' K H. rewrite toks_eq in K by discriminate.
    cbn [map_tokens] in H. destruct (map_res _ ch') as [c2| |] eqn:E; cbn [rmap rbind] in H; try discriminate. injection H as <-. constructor. auto.
  - intros e ch ch' F. destruct (S1 _ _ F) as (P1 & P2). split; [rewrite !toks_eq by discriminate; exact P1|]. intros n'' K H. rewrite toks_eq in K by discriminate.
    cbn [map_tokens] in H. destruct (map_res _ ch') as [c2| |] eqn:E; cbn [rmap rbind] in H; try discriminate. injection H as <-. constructor. auto.
  - intros l l' m op ch ch' FL F. destruct (S1 _ _ F) as (P1 & P2). destruct (S1 _ _ FL) as (P3 & P4).
    split; [rewrite !toks_eq by discriminate; cbn [children]; rewrite !flat_map_app; apply picked_app; auto|]. intros n'' K H. rewrite toks_eq in K by discriminate. cbn [children] in K.
    rewrite flat_map_app in K. apply Forall_app in K as [K1 K2].
    cbn [map_tokens] in H. destruct (map_res _ l') as [l2| |] eqn:E1; cbn [rmap rbind] in H; try discriminate. destruct (map_res _ ch') as [c2| |] eqn:E; cbn [rmap rbind] in H; try discriminate.
    injection H as <-. constructor; auto.
  - intros op ch ch' kept F HK. destruct (S1 _ _ F) as (P1 & P2). pose proof (picked_trans _ _ _ P1 _ HK) as P3.
    split; [rewrite !toks_eq by discriminate; change (picked (leaves (map Tok kept)) (leaves ch)); rewrite leaves_toks; auto|]. intros n'' K H. rewrite toks_eq in K by discriminate.
    cbn [map_tokens] in H. destruct (map_res _ (map Tok kept)) as [c2| |] eqn:E; cbn [rmap rbind] in H; try discriminate. injection H as <-.
    eapply patched_group; [apply all_leaves|exact P3|]. apply settle_toks; auto. eapply leafk_picked; eauto.
  - intros l l' op' ch ch' kept FL F HK. destruct (S1 _ _ F) as (P1 & P2). destruct (S1 _ _ FL) as (P3 & P4). pose proof (picked_trans _ _ _ P1 _ HK) as P5.
    split; [rewrite !toks_eq by discriminate; cbn [children]; rewrite !flat_map_app; apply picked_app; auto;
      change (picked (leaves (map Tok kept)) (leaves ch)); rewrite leaves_toks; auto|]. intros n'' K H. rewrite toks_eq in K by discriminate. cbn [children] in K.
    rewrite flat_map_app in K. apply Forall_app in K as [K1 K2].
    cbn [map_tokens] in H. destruct (map_res _ l') as [l2| |] eqn:E1; cbn [rmap rbind] in H; try discriminate. destruct (map_res _ (map Tok kept)) as [c2| |] eqn:E; cbn [rmap rbind] in H; try discriminate.
    injection H as <-. eapply patched_group_call; eauto; [apply all_leaves|]. apply settle_toks; auto. eapply leafk_picked; eauto.
Qed.
Lemma mended_patched : forall n n', md n n' -> patched n n'.
Proof.
  intros n n' H.
  assert (G : picked (toks n') (toks n) /\ patched n n').
  2:{ apply G. }
  revert n n' H.
  assert (S1 : forall l l', Forall2 (fun n n' => picked (toks n') (toks n) /\ patched n n') l l' -> picked (leaves l') (leaves l) /\ Forall2 patched l l').
  { intros l l' F. split; [apply picked_forall2|]; clear - F; induction F as [|? ? ? ? [? ?]]; constructor; auto. }
  assert (ST : forall kept, Forall2 patched (map Tok kept) (map Tok kept)).
  { induction kept; cbn; constructor; auto. constructor. }
  apply (mended_ind' (fun n n' => picked (toks n') (toks n) /\ patched n n')).
  - intros t. split; [apply picked_refl|constructor].
  - intros k op ch ch' F. destruct (S1 _ _ F) as (P1 & P2). split; [rewrite !toks_eq by discriminate; exact P1|]. constructor. auto.
  - intros e ch ch' F. destruct (S1 _ _ F) as (P1 & P2). split; [rewrite !toks_eq by discriminate; exact P1|]. constructor. auto.
  - intros l l' m op ch ch' FL F. destruct (S1 _ _ F) as (P1 & P2). destruct (S1 _ _ FL) as (P3 & P4).
    split; [rewrite !toks_eq by discriminate; cbn [children]; rewrite !flat_map_app; apply picked_app; auto|]. constructor; auto.
  - intros op ch ch' kept F HK. destruct (S1 _ _ F) as (P1 & P2). pose proof (picked_trans _ _ _ P1 _ HK) as P3.
    split; [rewrite !toks_eq by discriminate; change (picked (leaves (map Tok kept)) (leaves ch)); rewrite leaves_toks; auto|].
    eapply patched_group; [apply all_leaves|exact P3|auto].
  - intros l l' op' ch ch' kept FL F HK. destruct (S1 _ _ F) as (P1 & P2). destruct (S1 _ _ FL) as (P3 & P4). pose proof (picked_trans _ _ _ P1 _ HK) as P5.
    split; [rewrite !toks_eq by discriminate; cbn [children]; rewrite !flat_map_app; apply picked_app; auto;
      change (picked (leaves (map Tok kept)) (leaves ch)); rewrite leaves_toks; auto|].
    eapply patched_group_call; eauto. apply all_leaves.
Qed.

(** a tree without unterminated tokens is left alone *)
Lemma settle_same : forall n, Forall (fun t => unterminated t = false) (toks n) -> map_tokens (reparse_if tokenize_line input tw) n = Ok n.
Proof.
  apply (cst_ind' (fun n => Forall (fun t => unterminated t = false) (toks n) -> map_tokens (reparse_if tokenize_line input tw) n = Ok n)). intros n IH H.
  assert (L : forall l, incl l (children n) -> Forall (fun t => unterminated t = false) (flat_map toks l) -> map_res (map_tokens (reparse_if tokenize_line input tw)) l = Ok l).
  { intros l Hi. rewrite Forall_forall in IH. induction l as [|c l IHl]; intros K; cbn [map_res]; auto. cbn [flat_map] in K. apply Forall_app in K as [K1 K2].
    rewrite (IH c); auto; [|apply Hi; left; auto]. cbn [rbind]. rewrite IHl; auto. intros x Hx. apply Hi. right. auto. }
  destruct (is_tok_dec n) as [(t & ->)|Hn].
  - cbn [map_tokens]. unfold reparse_if. inversion H; subst. rewrite H2. reflexivity.
  - rewrite (toks_eq n Hn) in H. destruct n as [t|[l|x] m op body|e ch|k op ch|b ch src|a b src]; cbn [children map_tokens] in *.
    + exfalso. eapply Hn. reflexivity.
    + rewrite flat_map_app in H. apply Forall_app in H as [K1 K2]. rewrite L; auto using incl_appl, incl_refl. cbn [rmap rbind]. rewrite L; auto using incl_appr, incl_refl.
    + cbn [flat_map] in H. apply Forall_app in H as [K1 K2]. inversion IH; subst. rewrite H1; auto. cbn [rmap rbind]. rewrite L; auto. intros y Hy. right. auto.
    + rewrite L; auto using incl_refl.
    + rewrite L; auto using incl_refl.
    + rewrite L; auto using incl_refl.
    + reflexivity.
Qed.
Lemma settle_same_list : forall l, Forall (fun t => unterminated t = false) (leaves l) -> reparse_unterminated tokenize_line input tw l = Ok l.
Proof.
  intros l. unfold reparse_unterminated, leaves. induction l as [|n l IH]; intros H; cbn [map_res]; auto. cbn [flat_map] in H. apply Forall_app in H as [K1 K2].
  rewrite settle_same; auto. cbn [rbind]. rewrite IH; auto.
Qed.
End Repair.

(** ** Complete trees *)
Lemma nodes_preorder : forall n, preorder n (nodes n). Proof. apply preorder_nodes. Qed.
Lemma everywhere_nodes : forall Q n, everywhere Q n <-> Forall Q (nodes n).
Proof. intros Q n. split; [intros H; apply H; apply nodes_preorder|]. intros H ns K. apply preorder_det in K. subst. auto. Qed.
Lemma complete_children : forall n l, incl l (children n) -> everywhere (fun n => ~ lacks_closer n) n -> Forall (everywhere (fun n => ~ lacks_closer n)) l.
Proof.
  intros n l Hi H. apply everywhere_nodes in H. rewrite nodes_eq in H. inversion H; subst. apply Forall_forall. intros c Hc. apply everywhere_nodes. apply Forall_forall. intros g Hg.
  rewrite Forall_forall in H3. apply H3. apply in_flat_map. eauto.
Qed.
Lemma complete_self : forall n, everywhere (fun n => ~ lacks_closer n) n -> ~ lacks_closer n.
Proof. intros n H. apply everywhere_nodes in H. rewrite nodes_eq in H. inversion H; subst. auto. Qed.
Lemma patched_same : forall n' n, patched n n' -> everywhere (fun n => ~ lacks_closer n) n' -> Forall (fun t => ~ unterminated_kind (t_kind t)) (toks n') -> n = n'.
Proof.
  apply (cst_ind' (fun n' => forall n, patched n n' -> everywhere (fun n => ~ lacks_closer n) n' -> Forall (fun t => ~ unterminated_kind (t_kind t)) (toks n') -> n = n')).
  intros n' IH n H HE HT. pose proof (complete_self _ HE) as HS.
  assert (L : forall l l', incl l' (children n') -> Forall (fun t => ~ unterminated_kind (t_kind t)) (flat_map toks l') -> Forall2 patched l l' -> l = l').
  { intros l l' Hi K F. pose proof (complete_children _ _ Hi HE) as HC. rewrite Forall_forall in IH. induction F as [|x y l l' Hxy F IHF]; auto.
    cbn [flat_map] in K. apply Forall_app in K as [K1 K2]. inversion HC; subst. rewrite (IH y) with (n := x); auto; [|apply Hi; left; auto]. f_equal. apply IHF; auto. intros z Hz. apply Hi. right. auto. }
  destruct H as [t|t t' U E|k op ch ch' F|e ch ch' F|l l' m op ch ch' Fl F|op ch ts kept ch' A P F|l l' op ch ts kept ch' Fl A P F].
  - reflexivity.
  - inversion HT; subst. rewrite E in H1. contradiction.
  - f_equal. rewrite toks_eq in HT by discriminate. apply L; auto using incl_refl.
  - f_equal. rewrite toks_eq in HT by discriminate. apply L; auto using incl_refl.
  - rewrite toks_eq in HT by discriminate. cbn [children] in *. rewrite flat_map_app in HT. apply Forall_app in HT as [K1 K2].
    rewrite (L l l'), (L ch ch'); auto using incl_appl, incl_appr, incl_refl.
  - exfalso. apply HS. left. eauto.
  - exfalso. apply HS. right. eauto.
Qed.

(** ** The public entry points *)
Lemma Forall2_impl : forall A B (Q R : A -> B -> Prop), (forall a b, Q a b -> R a b) -> forall l l', Forall2 Q l l' -> Forall2 R l l'.
Proof. intros A B Q R H l l' F. induction F; constructor; auto. Qed.
Lemma parse_quiet : forall o dbg b input l s, 0 < o_tab_width o -> parse_cst_raw o dbg keep b input = Ok (l, s) -> stack s = [] /\ ctxs s = [] /\ groups s = [].
Proof. intros o dbg b input l s Ht H. exact (parse_quiescent o dbg keep b input l s Ht keep_ok H). Qed.

Lemma public_patched : forall o dbg b input l s, 0 < o_tab_width o -> parse_cst_seq o dbg b input = Ok (l, s) ->
  exists l0, parse_cst_raw o dbg keep b input = Ok (l0, s) /\ Forall2 patched l0 l.
Proof.
  intros o dbg b input l s Ht H. unfold parse_cst_seq in H. destruct (parse_cst_raw o dbg _ b input) as [[l1 s1]| |] eqn:E; cbn [rbind] in H; try discriminate.
  destruct (mended_parse _ _ _ _ _ _ _ E) as (l0 & s0 & E0 & F & HR). exists l0.
  assert (ES : s0 = s1).
  { destruct (parse_quiet _ _ _ _ _ _ Ht E0) as (Q1 & _ & _). destruct HR as [z c g x x' FX]. cbn [stack] in Q1. subst x'. inversion FX. reflexivity. }
  subst s0.
  destruct (parse_row _ _ _ _ _ _ Ht E0) as (_ & _ & K). assert (LK : leafk (leaves l0)) by (unfold leafk; eapply Forall_impl; [|exact K]; cbn beta; tauto).
  destruct (utf8_valid input).
  - destruct (reparse_unterminated _ _ _ l1) as [l2| |] eqn:E2; cbn [rmap rbind] in H; try discriminate. injection H as <- <-. split; auto.
    eapply settle_list; eauto. eapply Forall2_impl; [|exact F]. intros x y Hxy n''. apply (mended_settled _ _ _ _ _ Hxy).
  - injection H as <- <-. split; auto. eapply Forall2_impl; [|exact F]. intros x y Hxy. eapply mended_patched; eauto.
Qed.
Lemma public_complete : forall o dbg b input l s, 0 < o_tab_width o -> complete l ->
  (parse_cst_seq o dbg b input = Ok (l, s) <-> parse_cst_raw o dbg keep b input = Ok (l, s)).
Proof.
  intros o dbg b input l s Ht (C1 & C2). specialize (C2 _ (all_leaves l)). split; intros H.
  - destruct (public_patched _ _ _ _ _ _ Ht H) as (l0 & E & F). replace l with l0; auto.
    revert C1 C2. clear - F. unfold leaves. induction F as [|x y l l' Hxy F IH]; intros C1 C2; auto. cbn [flat_map] in C2. apply Forall_app in C2 as [K1 K2].
    inversion C1; subst. rewrite (patched_same y x); auto. rewrite IH; auto.
  - destruct (parse_quiet _ _ _ _ _ _ Ht H) as (Q1 & _ & _). destruct (parse_row _ _ _ _ _ _ Ht H) as (_ & _ & K).
    unfold parse_cst_seq. rewrite (gap_parse o dbg keep _ b input l s H Q1).
    + cbn [rbind]. destruct (utf8_valid input); auto. rewrite settle_same_list; auto. apply Forall_forall. intros t Hin. rewrite Forall_forall in K, C2. destruct (K _ Hin) as (_ & KK).
      destruct (unterminated t) eqn:U; auto. exfalso. apply (C2 _ Hin). apply unterminated_leaf; auto.
    + intros X. apply Exists_exists in X as (n & Hn & g & Hg & LG). rewrite Forall_forall in C1. specialize (C1 _ Hn). apply everywhere_nodes in C1. rewrite Forall_forall in C1.
      apply (C1 _ Hg). unfold lacks_closer. destruct LG as [(op & ch & ->)|(h & op & ch & ->)]; eauto.
Qed.
Lemma public_debug : forall o b input x, parse_cst_seq o true b input = Ok x -> parse_cst_seq o false b input = Ok x.
Proof.
  intros o b input x H. unfold parse_cst_seq in *. destruct (parse_cst_raw o true _ b input) as [y| |] eqn:E; cbn [rbind] in H; try discriminate.
  rewrite (debug_parse _ _ _ _ _ E). exact H.
Qed.
