(** Second thoughts about unterminated tokens (ErrorReparse.v): lines, columns and the
    tokens that are cut. *)
From Coq Require Import ZArith List Bool Lia.
From Verif Require Import Base Source WLChar SpecText SpecMisc SpecReader ByteDecoder CharDecoder Decode TextProofs Logic WlDecode FormatProofs ReaderProofs MiscProofs
  GenTokenKind TokenKind Tokenizer Iter TokLogic TokenizerProofs SpecTokenizer TokenLoop TokSim TokSpecs TokAgree TokResults Utils Cst Parser ErrorReparse.
Import ListNotations.
Local Open Scope Z_scope.

(** ** One character of clean text *)
Inductive clean_step : list Z -> Z -> list Z -> list Z -> Prop :=
| cs_crlf : forall r, clean_step (13 :: 10 :: r) CRLF [13; 10] r
| cs_char : forall c r, scalar c -> (c = 13 -> hd 0 r <> 10) -> clean_step (utf8 c ++ r) c (utf8 c) r.

Lemma clean_cons : forall c r, scalar c -> c <> BOM_CHAR -> well_formed_no_bom r -> well_formed_no_bom (utf8 c ++ r).
Proof. intros c r S N (cs & F & I & ->). exists (c :: cs). split; auto. split; auto. intros [?|?]; auto. Qed.
Lemma clean_inv : forall c r, scalar c -> well_formed_no_bom (utf8 c ++ r) -> c <> BOM_CHAR /\ well_formed_no_bom r.
Proof.
  intros c r S (ds & F & N & E). destruct ds as [|d ds].
  - cbn in E. apply app_eq_nil in E as [E _]. exfalso; eapply utf8_nonempty; eauto.
  - inversion F; subst. unfold encode in E; cbn [map concat] in E. apply utf8_inj in E; auto. destruct E as [<- ->].
    split; [intros ->; apply N; left; reflexivity|]. exists ds. split; [auto|split; [|reflexivity]]. intros I; apply N; right; auto.
Qed.

Lemma clean_decode : forall bs, bs <> [] -> well_formed_no_bom bs ->
  exists w, clean_step bs (dchar (decode bs)) w (drest (decode bs)) /\ bs = w ++ drest (decode bs) /\ well_formed_no_bom (drest (decode bs)).
Proof.
  intros bs Hn W. revert Hn W. generalize (decode_case bs). generalize (decode bs). intros dd D.
  destruct D as [|r0|c0 r0 Hc0 Hb0 Hn0|r0|bs0 c0 r0 u ? Hc Hno ?]; intros Hn W.
  - congruence.
  - cbn [good_ dchar drest fst snd]. exists [13; 10]. split; [constructor|]. split; auto.
    change (13 :: 10 :: r0) with (utf8 13 ++ utf8 10 ++ r0) in W. apply clean_inv in W as [_ W]; [|unfold scalar; lia].
    apply clean_inv in W as [_ W]; [auto|unfold scalar; lia].
  - cbn [good_ dchar drest fst snd]. exists (utf8 c0). split; [constructor; auto|]. split; auto. apply clean_inv in W; tauto.
  - exfalso. change (well_formed_no_bom (utf8 BOM_CHAR ++ r0)) in W. apply clean_inv in W as [W _]; [congruence|unfold scalar, BOM_CHAR; lia].
  - exfalso. destruct W as (ds & F & N & E). destruct ds as [|d ds]; [cbn in E; congruence|].
    inversion F; subst. eapply (Hno d); [eassumption | reflexivity].
Qed.

Lemma clean_nil : well_formed_no_bom []. Proof. exists []. split; auto. Qed.
Lemma clean_app : forall a b, well_formed_no_bom a -> well_formed_no_bom b -> well_formed_no_bom (a ++ b).
Proof.
  intros a b (cs & F & N & ->) (ds & F' & N' & ->). exists (cs ++ ds). split; [apply Forall_app; auto|]. split.
  - intros H. apply in_app_or in H as [?|?]; auto.
  - unfold encode. rewrite map_app, concat_app. reflexivity.
Qed.
Lemma clean_app_inv : forall a b, well_formed_no_bom a -> well_formed_no_bom (a ++ b) -> well_formed_no_bom b.
Proof.
  intros a b (cs & F & N & ->) W. induction cs as [|c cs IH]; auto. inversion F; subst.
  unfold encode in W. cbn [map concat] in W. rewrite <- app_assoc in W. apply clean_inv in W as [_ W]; auto.
  apply IH; auto. intros I. apply N. right. auto.
Qed.
Lemma clean_well_formed : forall a, well_formed_no_bom a -> well_formed a.
Proof. intros a (cs & F & _ & E). exists cs. auto. Qed.

Lemma moves_clean : forall o bs l cs bs' l', moves o bs l cs bs' l' -> well_formed_no_bom bs ->
  well_formed_no_bom bs' /\ exists w, bs = w ++ bs' /\ well_formed_no_bom w.
Proof.
  intros o bs l cs bs' l' H. induction H as [bs l|bs l cs bs' l' Hn Hm IH]; intros W.
  - split; auto. exists []. split; auto. apply clean_nil.
  - destruct (clean_decode _ Hn W) as (w & S & E & W'). destruct (IH W') as (W2 & w' & E' & W3). split; auto.
    exists (w ++ w'). split; [rewrite E at 1; rewrite E' at 1; apply app_assoc|]. apply clean_app; auto. revert S. generalize (decode bs). intros d S. clear - S W E Hn.
    remember (dchar d) as c. remember (drest d) as r. destruct S as [r|c r Sc _].
    + exists [13; 10]. split; [repeat constructor; unfold scalar; lia|]. split; [|reflexivity]. unfold BOM_CHAR. cbn. lia.
    + exists [c]. split; auto. split; [|cbn; rewrite app_nil_r; auto]. apply clean_inv in W as [Nc _]; auto. intros [?|[]]; auto.
Qed.

(** ** Columns *)
Lemma utf8_head : forall c, scalar c -> exists b t, utf8 c = b :: t /\ continues b = false /\ Forall (fun x => continues x = true) t /\
  (c = 9 <-> b = 9) /\ (c < 0x80 -> b = c /\ t = []) /\ (0x80 <= c -> 0x80 <= b).
Proof.
  intros c S. unfold utf8. destruct (Z.ltb_spec c 0x80).
  { exists c, []. split; auto. split; [unfold continues; destruct (between_spec 0x80 c 0xbf); auto; lia|]. split; auto. split; [tauto|]. split; [auto|lia]. }
  assert (B : forall x, continues (0x80 + x mod 64) = true).
  { intros x. unfold continues. pose proof (Z.mod_pos_bound x 64 ltac:(lia)). destruct (between_spec 0x80 (0x80 + x mod 64) 0xbf); auto; lia. }
  assert (A : forall x, 0xC0 <= x -> continues x = false).
  { intros x Hx. unfold continues. destruct (between_spec 0x80 x 0xbf); auto; lia. }
  assert (0 <= c <= 0x10ffff) by (unfold scalar in S; lia).
  destruct (Z.ltb_spec c 0x800); [|destruct (Z.ltb_spec c 0x10000)];
    eexists _, _; (split; [reflexivity|]); split; [apply A| |apply A| |apply A|]; try (pose proof (Z.div_pos c 64); pose proof (Z.div_pos c 4096); pose proof (Z.div_pos c 262144); lia);
    (split; [repeat constructor; apply B|]); pose proof (Z.div_pos c 64); pose proof (Z.div_pos c 4096); pose proof (Z.div_pos c 262144);
    (split; [lia|]); (split; lia).
Qed.

Definition tab_or_next (tw col c : Z) : Z := if c =? 9 then tw * ((col - 1) / tw) + 1 + tw else col + 1.

Lemma walk_columns_app : forall a b col tw, walk_columns col tw (a ++ b) = rbind (walk_columns col tw a) (fun c => walk_columns c tw b).
Proof.
  induction a as [|x a IH]; intros b col tw; cbn [app walk_columns rbind]; auto. destruct (continues x); [apply IH|].
  destruct (next_column col tw x); cbn [rbind]; auto.
Qed.
Lemma walk_columns_continues : forall t col tw, Forall (fun x => continues x = true) t -> walk_columns col tw t = Ok col.
Proof. intros t col tw F. induction F as [|x t H F IH]; cbn [walk_columns]; auto. rewrite H. auto. Qed.
Lemma next_column_char : forall col tw b c, 0 < tw -> (c = 9 <-> b = 9) -> next_column col tw b = Ok (tab_or_next tw col c).
Proof.
  intros col tw b c Ht H. unfold next_column, tab_or_next, tab_next_column.
  destruct (Z.eqb_spec b 9), (Z.eqb_spec c 9); try tauto; auto. destruct (Z.eqb_spec tw 0); [lia|auto].
Qed.
Lemma walk_columns_utf8 : forall c col tw, scalar c -> 0 < tw -> walk_columns col tw (utf8 c) = Ok (tab_or_next tw col c).
Proof.
  intros c col tw S Ht. destruct (utf8_head c S) as (b & t & -> & Hb & F & E & _). cbn [walk_columns]. rewrite Hb, (next_column_char _ _ _ c) by auto.
  cbn [rbind]. apply walk_columns_continues; auto.
Qed.

Lemma tab_or_next_gt : forall tw col c, 0 < tw -> col < tab_or_next tw col c.
Proof.
  intros tw col c Ht. unfold tab_or_next. destruct (c =? 9); [|lia].
  pose proof (Z.div_mod (col - 1) tw ltac:(lia)). pose proof (Z.mod_pos_bound (col - 1) tw ltac:(lia)). nia.
Qed.
Lemma walk_columns_ge : forall cs col tw w, Forall scalar cs -> 0 < tw -> walk_columns col tw (encode cs) = Ok w -> col <= w.
Proof.
  induction cs as [|c cs IH]; intros col tw w F Ht H; cbn in H; [injection H as <-; lia|]. inversion F; subst.
  fold (encode cs) in H. rewrite walk_columns_app, walk_columns_utf8 in H by auto. cbn [rbind] in H. apply IH in H; auto.
  pose proof (tab_or_next_gt tw col c Ht). lia.
Qed.
Lemma walk_columns_ok : forall cs col tw, Forall scalar cs -> 0 < tw -> exists w, walk_columns col tw (encode cs) = Ok w.
Proof.
  induction cs as [|c cs IH]; intros col tw F Ht; [exists col; reflexivity|]. inversion F; subst.
  unfold encode. cbn [map concat]. fold (encode cs). rewrite walk_columns_app, walk_columns_utf8 by auto. cbn [rbind]. apply IH; auto.
Qed.
Lemma walk_columns_walk : forall cs col tw, Forall scalar cs -> 0 < tw -> walk_columns col tw (encode cs) = Ok (walk tw col cs).
Proof.
  induction cs as [|c cs IH]; intros col tw F Ht; [reflexivity|]. inversion F; subst.
  unfold encode. cbn [map concat]. fold (encode cs). rewrite walk_columns_app, walk_columns_utf8 by auto. cbn [rbind walk]. rewrite IH by auto.
  do 2 f_equal. unfold tab_or_next, next_tab_stop. destruct (c =? 9); [ring|auto].
Qed.

Lemma index_columns_continues : forall t r col tw want n, Forall (fun x => continues x = true) t -> index_columns col tw want r = Ok n ->
  index_columns col tw want (t ++ r) = Ok (length t + n)%nat.
Proof. intros t r col tw want n F H. induction F as [|x t Hx F IH]; cbn [app index_columns length]; auto. rewrite Hx, IH. reflexivity. Qed.
Lemma index_columns_at : forall cs r col tw want, Forall scalar cs -> 0 < tw -> walk_columns col tw (encode cs) = Ok want ->
  match r with [] => False | b :: _ => continues b = false end -> index_columns col tw want (encode cs ++ r) = Ok (length (encode cs)).
Proof.
  induction cs as [|c cs IH]; intros r col tw want F Ht H Hr.
  - cbn in H. injection H as <-. cbn [encode map concat app length]. destruct r as [|b r]; [contradiction|]. cbn [index_columns]. rewrite Hr.
    rewrite (next_column_char _ _ _ b) by tauto. cbn [rbind]. pose proof (tab_or_next_gt tw col b Ht).
    rewrite Z.leb_refl. destruct (Z.ltb_spec col (tab_or_next tw col b)); [reflexivity|lia].
  - inversion F as [|? ? Sc F']; subst. unfold encode in *. cbn [map concat] in *. fold (encode cs) in *.
    rewrite walk_columns_app, walk_columns_utf8 in H by auto. cbn [rbind] in H.
    pose proof (walk_columns_ge cs _ _ _ F' Ht H) as G. rewrite <- app_assoc.
    destruct (utf8_head c Sc) as (b & t & Eu & Hb & Ft & Eb & _). rewrite Eu. cbn [app index_columns]. rewrite Hb, (next_column_char _ _ _ c) by auto.
    cbn [rbind]. replace (want <? tab_or_next tw col c) with false by (symmetry; apply Z.ltb_ge; lia). rewrite andb_false_r.
    rewrite (index_columns_continues t _ _ _ _ (length (encode cs))) by auto. cbn [length]. rewrite app_length. reflexivity.
Qed.

(** ** Lines *)
Definition whole (p : list Z * list Z) : list Z := fst p ++ snd p.
Definition text_of (ls : list (list Z * list Z)) : list Z := concat (map whole ls).

Lemma text_of_app : forall a b, text_of (a ++ b) = text_of a ++ text_of b.
Proof. intros. unfold text_of. rewrite map_app, concat_app. reflexivity. Qed.

Lemma utf8_no_break : forall c, scalar c -> c <> 10 -> c <> 13 -> no_break (utf8 c).
Proof.
  intros c S N1 N2. destruct (utf8_head c S) as (b & t & -> & Hb & Ft & _ & L & G).
  assert (T : forall x, x = 10 \/ x = 13 -> ~ In x t).
  { intros x Hx I. rewrite Forall_forall in Ft. apply Ft in I. destruct Hx as [-> | ->]; discriminate. }
  assert (B : b <> 10 /\ b <> 13).
  { destruct (Z.ltb_spec c 0x80); [destruct (L ltac:(lia)); lia|specialize (G ltac:(lia)); lia]. }
  split; intros [?|I]; try lia; revert I; apply T; auto.
Qed.

Lemma split_from_no_break : forall a line r, no_break a -> split_lines_from line (a ++ r) = split_lines_from (line ++ a) r.
Proof.
  induction a as [|x a IH]; intros line r [N1 N2]; [rewrite app_nil_r; reflexivity|]. cbn [app split_lines_from].
  destruct (Z.eqb_spec x 10) as [->|]; [exfalso; apply N1; left; auto|]. destruct (Z.eqb_spec x 13) as [->|]; [exfalso; apply N2; left; auto|].
  rewrite IH; [rewrite <- app_assoc; reflexivity|]. split; intros H; [apply N1|apply N2]; right; auto.
Qed.
Lemma split_from_line : forall n r a, (length r <= n)%nat -> split_lines_from a r =
  match split_lines_from [] r with (c, e) :: ls => (a ++ c, e) :: ls | [] => match a with [] => [] | _ => [(a, [])] end end.
Proof.
  assert (K : forall n r l a, (length r <= n)%nat -> l <> [] -> split_lines_from (a ++ l) r =
    match split_lines_from l r with (c, e) :: ls => (a ++ c, e) :: ls | [] => [] end).
  { induction n as [|n IH]; intros r l a L N.
    - destruct r; [|cbn in L; lia]. cbn. destruct l; [congruence|]. destruct a; cbn; auto.
    - destruct r as [|x r]; [cbn; destruct l; [congruence|]; destruct a; cbn; auto|]. cbn [split_lines_from]. destruct (x =? 10); auto.
      destruct (x =? 13); [destruct r as [|y r]; auto; destruct (y =? 10); auto|]. rewrite <- app_assoc. apply IH; [cbn in L; lia|]. destruct l; discriminate. }
  intros n r a L. destruct r as [|x r].
  - cbn. reflexivity.
  - cbn [split_lines_from]. destruct (x =? 10); [rewrite app_nil_r; auto|]. destruct (x =? 13).
    { destruct r as [|y r]; [rewrite app_nil_r; auto|]. destruct (y =? 10); rewrite app_nil_r; auto. }
    cbn [app]. rewrite (K (length r) r [x] a) by (auto; discriminate).
    pose proof (K (length r) r [x] []) as H. cbn [app] in H. specialize (H (le_n _) ltac:(discriminate)).
    destruct (split_lines_from [x] r) as [|[c e] ls] eqn:E; auto. exfalso.
    clear - E. assert (forall r l, l <> [] -> split_lines_from l r <> []).
    { clear. induction r as [|y r IH]; intros l N; cbn; [destruct l; [congruence|discriminate]|]. destruct (y =? 10); [discriminate|].
      destruct (y =? 13); [destruct r as [|z r]; [discriminate|destruct (z =? 10); discriminate]|]. apply IH. destruct l; discriminate. }
    eapply H; [|eauto]. discriminate.
Qed.

(** where a reader that has come to [bs] at [l] is, in terms of lines *)
Record cursor (tw : Z) (input bs : list Z) (l : loc) (before : list (list Z * list Z)) (cpre : list Z) : Prop := mkcursor {
  cu_text : input = text_of before ++ cpre ++ bs;
  cu_lines : split_lines_from [] input = before ++ split_lines_from cpre bs;
  cu_loc : exists C, l = LineCol (1 + Z.of_nat (length before)) C /\ walk_columns 1 tw cpre = Ok C;
  cu_break : no_break cpre;
  cu_wf : well_formed_no_bom cpre;
  cu_ended : Forall (fun p => snd p <> []) before }.

Lemma cursor_start : forall tw input, cursor tw input input (LineCol 1 1) [] [].
Proof.
  intros tw input. constructor; auto.
  - exists 1. auto.
  - split; intros [].
  - apply clean_nil.
Qed.

Lemma split_from_break : forall bs c w r line, clean_step bs c w r -> is_line_end c = true ->
  split_lines_from line bs = (line, w) :: split_lines_from [] r.
Proof.
  intros bs c w r line H E. destruct H as [r|c r Sc Nc]; [reflexivity|]. unfold is_line_end in E. rewrite !orb_true_iff, !Z.eqb_eq in E.
  destruct E as [[->| ->]| ->]; [reflexivity| |unfold scalar, CRLF_CHAR in Sc; lia].
  change (utf8 13) with [13]. cbn [app split_lines_from Z.eqb Pos.eqb]. destruct r as [|y r']; auto. specialize (Nc eq_refl). cbn [hd] in Nc.
  destruct (Z.eqb_spec y 10); [contradiction|auto].
Qed.

Lemma adv_line_end : forall o c l a b, l = LineCol a b -> is_line_end c = true -> adv o c l = LineCol (a + 1) 1.
Proof.
  intros o c l a b -> E. unfold is_line_end in E. rewrite !orb_true_iff, !Z.eqb_eq in E. destruct E as [[->| ->]| ->]; reflexivity.
Qed.
Lemma adv_no_end : forall o c a b, c <> EndOfFile -> is_line_end c = false -> adv o c (LineCol a b) = LineCol a (tab_or_next (o_tab_width o) b c).
Proof.
  intros o c a b N E. unfold is_line_end in E. rewrite !orb_false_iff in E. destruct E as [[E1 E2] E3]. unfold adv, tab_or_next.
  destruct (Z.eqb_spec c EndOfFile); [contradiction|]. rewrite E1, E2. cbn [orb]. change CRLF with CRLF_CHAR. rewrite E3. destruct (c =? 9); reflexivity.
Qed.

Lemma cursor_step : forall o input bs c w r l before cpre, 0 < o_tab_width o -> cursor (o_tab_width o) input bs l before cpre -> clean_step bs c w r ->
  well_formed_no_bom bs ->
  if is_line_end c then cursor (o_tab_width o) input r (adv o c l) (before ++ [(cpre, w)]) []
  else cursor (o_tab_width o) input r (adv o c l) before (cpre ++ w).
Proof.
  intros o input bs c w r l before cpre Ht [T L (C & El & W) B F D] H HW.
  assert (Eb : bs = w ++ r) by (destruct H; reflexivity).
  destruct (is_line_end c) eqn:E.
  - constructor.
    + rewrite text_of_app, T, Eb. unfold text_of at 3. cbn [map concat whole fst snd app]. rewrite app_nil_r, <- !app_assoc. reflexivity.
    + rewrite L, (split_from_break _ _ _ _ _ H E), <- app_assoc. reflexivity.
    + exists 1. split; auto. rewrite (adv_line_end _ _ _ _ _ El E). f_equal. rewrite app_length. cbn [length]. lia.
    + split; intros [].
    + apply clean_nil.
    + apply Forall_app. split; auto. repeat constructor. destruct H as [r|c r Sc _]; [discriminate|]. cbn. apply utf8_nonempty; auto.
  - destruct H as [r|c r Sc Nc]; [discriminate|].
    assert (Nb : no_break (utf8 c)).
    { unfold is_line_end in E. rewrite !orb_false_iff, !Z.eqb_neq in E. apply utf8_no_break; tauto. }
    constructor.
    + rewrite T, <- !app_assoc. reflexivity.
    + rewrite L, split_from_no_break by auto. reflexivity.
    + exists (tab_or_next (o_tab_width o) C c). split.
      * rewrite El. apply adv_no_end; auto. intros ->. unfold scalar, EndOfFile in Sc. lia.
      * rewrite walk_columns_app, W. cbn [rbind]. apply walk_columns_utf8; auto.
    + destruct B as [B1 B2], Nb as [N1 N2]. split; intros I; apply in_app_or in I as [I|I]; auto.
    + apply clean_inv in HW as [Nbom _]; auto. apply clean_app; auto. rewrite <- (app_nil_r (utf8 c)). apply clean_cons; auto. apply clean_nil.
    + exact D.
Qed.

Lemma cursor_moves : forall o input bs l cs bs' l', 0 < o_tab_width o -> moves o bs l cs bs' l' -> well_formed_no_bom bs ->
  forall before cpre, cursor (o_tab_width o) input bs l before cpre -> exists before' cpre', cursor (o_tab_width o) input bs' l' before' cpre'.
Proof.
  intros o input bs l cs bs' l' Ht H. induction H as [bs l|bs l cs bs' l' Hn Hm IH]; intros W before cpre K; [eauto|].
  destruct (clean_decode _ Hn W) as (w & S & E & W'). pose proof (cursor_step o _ _ _ _ _ _ _ _ Ht K S W) as K'.
  destruct (is_line_end _); eapply IH; eauto.
Qed.

(** ** The lines a token or group lies on *)
Lemma split_from_nonempty : forall r l, l <> [] \/ r <> [] -> split_lines_from l r <> [].
Proof.
  induction r as [|y r IH]; intros l H; cbn; [destruct l; [destruct H; congruence|discriminate]|]. destruct (y =? 10); [discriminate|].
  destruct (y =? 13); [destruct r as [|z r]; [discriminate|destruct (z =? 10); discriminate]|]. apply IH. left. destruct l; discriminate.
Qed.
Lemma lines_at_app : forall a off b, lines_at off (a ++ b) = lines_at off a ++ lines_at (off + length (text_of a)) b.
Proof.
  induction a as [|[c n] a IH]; intros off b; cbn [app lines_at]; [rewrite Nat.add_0_r; reflexivity|]. rewrite IH. f_equal. f_equal. f_equal.
  unfold text_of. cbn [map concat]. unfold whole. cbn [fst snd]. rewrite !app_length. lia.
Qed.
Lemma lines_at_length : forall a off, length (lines_at off a) = length a.
Proof. induction a as [|[c n] a IH]; intros off; cbn; auto. Qed.
Lemma firstn_lines_at : forall n a off, firstn n (lines_at off a) = lines_at off (firstn n a).
Proof. induction n as [|n IH]; intros [|[c e] a] off; cbn; auto. rewrite IH. reflexivity. Qed.

Lemma retained : forall tw input bs l before cpre f0 n0 more C1 L2, cursor tw input bs l before cpre -> bs <> [] ->
  split_lines_from cpre bs = (f0, n0) :: more -> l = LineCol (1 + Z.of_nat (length before)) C1 -> 1 + Z.of_nat (length before) <= L2 ->
  retain_range (Line_split input) (Z.to_nat (1 + Z.of_nat (length before) - 1)) (Z.to_nat L2) =
    Ok (lines_at (length (text_of before)) ((f0, n0) :: firstn (Z.to_nat (L2 - (1 + Z.of_nat (length before)))) more)).
Proof.
  intros tw input bs l before cpre f0 n0 more C1 L2 [T L _ _ _ _] Hb E El HL.
  assert (Ni : input <> []). { rewrite T. destruct (text_of before); [|discriminate]. destruct cpre; [auto|discriminate]. }
  unfold Line_split, split_lines_keep_sep. destruct input as [|x y]; [congruence|]. rewrite L, E. unfold retain_range.
  replace (1 + Z.of_nat (length before) - 1) with (Z.of_nat (length before)) by lia. rewrite Nat2Z.id.
  rewrite firstn_lines_at. replace (Z.to_nat L2) with (length before + S (Z.to_nat (L2 - (1 + Z.of_nat (length before)))))%nat by lia.
  rewrite firstn_app_2. cbn [firstn]. rewrite lines_at_app, app_length, lines_at_length.
  replace (_ <? _)%nat with false by (symmetry; apply Nat.ltb_ge; cbn; lia). f_equal.
  rewrite skipn_app, lines_at_length, Nat.sub_diag. rewrite skipn_all2 by (rewrite lines_at_length; lia). reflexivity.
Qed.

(** ** Chunks *)
Fixpoint take_until (f : line -> bool) (l : list line) : list line :=
  match l with [] => [] | x :: r => if f x then [] else x :: take_until f r end.

Lemma split_from_take : forall (f : line -> bool) (pred : line -> line -> res bool) l cur a,
  (forall x y, In y l -> pred x y = Ok (negb (f y))) -> exists rest, split_by_pairs_from pred cur a l = Ok ((cur ++ take_until f l) :: rest).
Proof.
  intros f pred l. induction l as [|x l IH]; intros cur a H; cbn [split_by_pairs_from take_until]; [exists []; rewrite app_nil_r; auto|].
  rewrite H by (left; auto). cbn [rbind]. destruct (f x) eqn:E; cbn [negb].
  - destruct (IH [x] x) as [rest ->]; [intros; apply H; right; auto|]. cbn [rmap rbind]. rewrite app_nil_r. eexists. reflexivity.
  - destruct (IH (cur ++ [x]) x) as [rest ->]; [intros; apply H; right; auto|]. rewrite <- app_assoc. eauto.
Qed.
Lemma split_into_chunks_take : forall tl f x l, (forall y, In y l -> is_new_statement_line tl (ln_content y) = Ok (f y)) ->
  exists rest, split_into_chunks tl (x :: l) = Ok ((x :: take_until f l) :: rest).
Proof.
  intros tl f x l H. unfold split_into_chunks, split_by_pairs. destruct (split_from_take f (fun _ right => rmap negb (is_new_statement_line tl (ln_content right))) l [x] x) as [rest E].
  - intros _ y I. rewrite H by auto. reflexivity.
  - exists rest. exact E.
Qed.

Lemma last_good_blanks : forall chunk blanks pre g, chunk = pre ++ g :: blanks -> ln_content g <> [] -> Forall (fun l => ln_content l = []) blanks ->
  last_good chunk (length chunk - 1) = Ok (length pre).
Proof.
  intros chunk blanks pre g E Hg F.
  assert (K : forall n, (n <= length blanks)%nat -> last_good chunk (length pre + n) = Ok (length pre)).
  { induction n as [|n IH]; intros Hn.
    - rewrite Nat.add_0_r. destruct (length pre) eqn:En; cbn [last_good]; rewrite E.
      + apply length_zero_iff_nil in En. subst pre. cbn. destruct (ln_content g); congruence.
      + replace (nth_error (pre ++ g :: blanks) (S n)) with (Some g).
        * destruct (ln_content g); congruence.
        * rewrite <- En, nth_error_app2, Nat.sub_diag by lia. reflexivity.
    - rewrite Nat.add_succ_r. cbn [last_good]. rewrite E, nth_error_app2 by lia. replace (S (length pre + n) - length pre)%nat with (S n) by lia.
      cbn [nth_error]. destruct (nth_error blanks n) as [b|] eqn:Eb; [|apply nth_error_None in Eb; lia].
      apply nth_error_In in Eb. rewrite Forall_forall in F. rewrite (F _ Eb). rewrite <- E. apply IH. lia. }
  replace (length chunk - 1)%nat with (length pre + length blanks)%nat; [apply K; lia|]. rewrite E, app_length. cbn. lia.
Qed.

(** a chunk whose first line has some content: the last line with content *)
Lemma chunk_cut : forall x l, ln_content x <> [] ->
  Forall (fun l => ln_content l = []) l \/
  exists mid g blanks, l = mid ++ g :: blanks /\ ln_content g <> [] /\ Forall (fun l => ln_content l = []) blanks.
Proof.
  intros x l _. induction l as [|y l IH] using rev_ind; auto. destruct (ln_content y) eqn:E.
  - destruct IH as [F|(mid & g & blanks & -> & Hg & F)].
    + left. apply Forall_app. auto.
    + right. exists mid, g, (blanks ++ [y]). split; [rewrite <- app_assoc; reflexivity|]. split; auto. apply Forall_app. auto.
  - right. exists l, y, []. split; auto. split; [rewrite E; discriminate|auto].
Qed.

(** the lines of clean text are clean *)
Lemma encode_cut : forall cs l x r, Forall scalar cs -> encode cs = l ++ x :: r -> 0 <= x < 128 ->
  exists cs1 cs2, cs = cs1 ++ x :: cs2 /\ l = encode cs1 /\ r = encode cs2.
Proof.
  induction cs as [|c cs IH]; intros l x r F E Hx; [destruct l; discriminate|]. inversion F; subst.
  unfold encode in E. cbn [map concat] in E. fold (encode cs) in E.
  destruct (utf8_head c H1) as (b & t & Eu & Hb & Ht & Hc). rewrite Eu in E.
  destruct l as [|y l].
  - cbn in E. injection E as <- E. assert (c = b /\ t = []) as [-> ->].
    { destruct Hc as (_ & Hc1 & Hc2). destruct (Z_lt_ge_dec c 0x80); [destruct Hc1; auto|lia]. }
    exists [], cs. split; [reflexivity|]. split; [reflexivity|]. cbn in E. auto.
  - cbn in E. injection E as <- E. apply app_eq_app in E as (z & [[E1 E2]|[E1 E2]]).
    + destruct z as [|z0 z].
      * cbn in E2. destruct (IH [] x r H2 ltac:(cbn; congruence) Hx) as (cs1 & cs2 & -> & E3 & ->).
        exists (c :: cs1), cs2. split; auto. split; auto. unfold encode. cbn [map concat]. fold (encode cs1). rewrite <- E3, app_nil_r, Eu. rewrite app_nil_r in E1. congruence.
      * exfalso. cbn in E2. injection E2 as <- _. subst t. apply Forall_app in Ht as [_ Ht]. inversion Ht; subst.
        unfold continues in *. destruct (between_spec 128 x 191); [lia|discriminate].
    + subst l. destruct (IH z x r H2 ltac:(congruence) Hx) as (cs1 & cs2 & -> & E3 & ->).
      exists (c :: cs1), cs2. split; auto. split; auto. unfold encode. cbn [map concat]. fold (encode cs1). rewrite <- E3, Eu. reflexivity.
Qed.
Lemma clean_cut : forall l x r, well_formed_no_bom (l ++ x :: r) -> 0 <= x < 128 -> well_formed_no_bom l /\ well_formed_no_bom r.
Proof.
  intros l x r (cs & F & N & E) Hx. destruct (encode_cut cs l x r F (eq_sym E) Hx) as (cs1 & cs2 & -> & -> & ->).
  apply Forall_app in F as [F1 F2]. inversion F2; subst. split; [exists cs1|exists cs2]; (split; [auto|split; [|reflexivity]]); intros I; apply N; apply in_or_app; cbn; auto.
Qed.
Lemma clean_lines : forall t ls, lines_of t ls -> well_formed_no_bom t -> Forall (fun p => well_formed_no_bom (fst p)) ls.
Proof.
  induction 1 as [|l N B|l s r ls NB LB H IH C]; intros W; auto.
  destruct LB as [->|[->| ->]]; cbn [app] in W; apply clean_cut in W as [W1 W2]; try lia; constructor; auto.
  apply (clean_cut [] 10) in W2 as [_ W2]; auto. lia.
Qed.
Lemma lines_split : forall t ls, lines_of t ls -> forall pre c n post, ls = pre ++ (c, n) :: post ->
  t = text_of pre ++ c ++ n ++ text_of post /\ no_break c /\ (n = [] /\ post = [] /\ c <> [] \/ line_break n).
Proof.
  induction 1 as [|l N B|l s r ls NB LB H IH C]; intros pre c n post E.
  - destruct pre; discriminate.
  - destruct pre as [|p pre]; [|destruct pre; discriminate]. injection E as <- <- <-. cbn. rewrite ?app_nil_r. split; [reflexivity|]. split; [exact B|]. left. auto.
  - destruct pre as [|p pre].
    + injection E as <- <- <-. split; [|auto]. pose proof (lines_of_concat _ _ H) as K. unfold text_of, whole. rewrite K. reflexivity.
    + injection E as <- ->. destruct (IH _ _ _ _ eq_refl) as (-> & B & D). split; auto. cbn. rewrite <- !app_assoc. reflexivity.
Qed.
Lemma clean_head : forall bs, bs <> [] -> well_formed_no_bom bs -> match bs with [] => False | b :: _ => continues b = false end.
Proof.
  intros bs N (cs & F & _ & ->). destruct cs as [|c cs]; [cbn in N; congruence|]. inversion F; subst.
  unfold encode. cbn [map concat]. destruct (utf8_head c H1) as (b & t & -> & Hb & _). exact Hb.
Qed.
Lemma boundary : forall x y, match y with [] => True | b :: _ => continues b = false end -> is_char_boundary (x ++ y) (length x) = true.
Proof.
  intros x y H. unfold is_char_boundary. destruct y as [|b y].
  - rewrite app_nil_r, Nat.eqb_refl. reflexivity.
  - rewrite nth_error_app2, Nat.sub_diag by lia. cbn [nth_error]. rewrite H, orb_true_r. reflexivity.
Qed.

(** ** The first chunk *)
Fixpoint take_lines (starts : list Z -> bool) (l : list (list Z * list Z)) : list (list Z * list Z) :=
  match l with [] => [] | x :: r => if starts (fst x) then [] else x :: take_lines starts r end.
Lemma take_lines_at : forall starts l off, take_until (fun y => starts (ln_content y)) (lines_at off l) = lines_at off (take_lines starts l).
Proof. induction l as [|[c n] l IH]; intros off; cbn; auto. destruct (starts c); cbn; auto. rewrite IH. reflexivity. Qed.
Lemma take_lines_incl : forall starts l x, In x (take_lines starts l) -> In x l.
Proof. induction l as [|y l IH]; intros x; cbn; auto. destruct (starts (fst y)); [intros []|]. intros [?|?]; auto. Qed.

Lemma first_chunk_lc : forall tl starts tw input bs l before cpre c0 n0 more C1 L2 C2, 0 < tw -> cursor tw input bs l before cpre ->
  well_formed_no_bom bs -> lines_of bs ((c0, n0) :: more) -> c0 <> [] -> l = LineCol (1 + Z.of_nat (length before)) C1 -> 1 + Z.of_nat (length before) <= L2 ->
  let kept := firstn (Z.to_nat (L2 - (1 + Z.of_nat (length before)))) more in
  (forall c n, In (c, n) kept -> is_new_statement_line tl c = Ok (starts c)) ->
  forall mid g blanks, (cpre ++ c0, n0) :: take_lines starts kept = mid ++ g :: blanks -> fst g <> [] -> Forall (fun p => fst p = []) blanks ->
  exists W, walk_columns 1 tw (fst g) = Ok W /\
  first_chunk_and_last_good_line tl input tw (mkspan l (LineCol L2 C2)) =
    Ok (lines_at (length (text_of before)) ((cpre ++ c0, n0) :: take_lines starts kept), length mid,
        mkspan l (LineCol (1 + Z.of_nat (length before) + Z.of_nat (length mid)) W)).
Proof.
  intros tl starts tw input bs l before cpre c0 n0 more C1 L2 C2 Ht Hc Wf LO N0 El HL kept Hs mid g blanks E Hg Fb.
  assert (Nb : bs <> []). { destruct (lines_split _ _ LO [] c0 n0 more eq_refl) as (Eb & _). intros ->. cbn in Eb. destruct c0; [congruence|discriminate]. }
  assert (Es : split_lines_from cpre bs = (cpre ++ c0, n0) :: more).
  { assert (Es : split_lines_from [] bs = (c0, n0) :: more).
    { apply (lines_of_unique bs); [|auto]. pose proof (split_lines_ok bs Nb) as K. unfold split_lines_keep_sep in K. destruct bs; [congruence|exact K]. }
    rewrite (split_from_line (length bs)), Es by lia. reflexivity. }
  pose proof (retained _ _ _ _ _ _ _ _ _ C1 L2 Hc Nb Es El HL) as R. fold kept in R.
  assert (Cg : well_formed_no_bom (fst g)).
  { pose proof (clean_lines _ _ LO Wf) as K. inversion K as [|a b K1 K2]; subst a b. cbn [fst] in K1.
    assert (F : Forall (fun p => well_formed_no_bom (fst p)) ((cpre ++ c0, n0) :: take_lines starts kept)).
    { constructor; [cbn [fst]; apply clean_app; [apply Hc|auto]|]. apply Forall_forall. intros x I. apply take_lines_incl in I.
      rewrite Forall_forall in K2. apply K2. unfold kept in I. rewrite <- (firstn_skipn (Z.to_nat (L2 - (1 + Z.of_nat (length before)))) more). apply in_or_app. auto. }
    rewrite E in F. apply Forall_app in F as [_ F]. inversion F; auto. }
  destruct Cg as (cs & Fcs & _ & Ecs). destruct (walk_columns_ok cs 1 tw Fcs Ht) as [W EW]. exists W. rewrite Ecs. split; auto.
  unfold first_chunk_and_last_good_line. subst l. cbn [kind_of_span sp_start sp_end rbind]. rewrite R. cbn [rbind lines_at].
  destruct (split_into_chunks_take tl (fun y => starts (ln_content y)) (mkline (length (text_of before)) (cpre ++ c0) n0)
    (lines_at (length (text_of before) + length (cpre ++ c0) + length n0) kept)) as [rest Er].
  { intros y I. assert (exists n, In (ln_content y, n) kept) as [n I'].
    { clear - I. revert I. generalize (length (text_of before) + length (cpre ++ c0) + length n0)%nat. induction kept as [|[c n] k IH]; intros off; cbn; [intros []|].
      intros [<-|I]; [exists n; auto|]. destruct (IH _ I) as [n' ?]. exists n'. auto. }
    eapply Hs; eauto. }
  rewrite Er. cbn [rbind]. rewrite take_lines_at.
  change (mkline (length (text_of before)) (cpre ++ c0) n0 :: lines_at (length (text_of before) + length (cpre ++ c0) + length n0) (take_lines starts kept))
    with (lines_at (length (text_of before)) ((cpre ++ c0, n0) :: take_lines starts kept)).
  rewrite E. rewrite lines_at_app. destruct g as [gc gn]. cbn [lines_at fst] in *.
  rewrite (last_good_blanks _ (lines_at (length (text_of before) + length (text_of mid) + length gc + length gn) blanks)
     (lines_at (length (text_of before)) mid) (mkline (length (text_of before) + length (text_of mid)) gc gn) eq_refl).
  - cbn [rbind]. rewrite app_nth2, Nat.sub_diag by lia. cbn [nth ln_content]. unfold line_column_width. rewrite Ecs, EW. cbn [rmap rbind].
    rewrite lines_at_length. replace (W - 1 + 1) with W by lia. reflexivity.
  - exact Hg.
  - clear - Fb. generalize (length (text_of before) + length (text_of mid) + length gc + length gn)%nat. induction Fb as [|[c n] b E F IH]; intros off; cbn; constructor; auto.
Qed.

(** ** What becomes of an unterminated token *)
Lemma last_lines_at : forall pre off c n d, last (lines_at off (pre ++ [(c, n)])) d = mkline (off + length (text_of pre)) c n.
Proof. intros. rewrite lines_at_app. cbn [lines_at]. apply last_last. Qed.
Lemma last_cons : forall {A} (l : list A) x d, last (x :: l) d = last l x.
Proof. induction l as [|y l IH]; intros x d; auto. change (last (x :: y :: l) d) with (last (y :: l) d). rewrite IH. change (last (y :: l) x) with (match l with [] => y | _ => last l x end). destruct l; auto. clear. revert a. induction l; intros; auto. cbn [last] in *. destruct l; auto. Qed.

Section Cut.
Context (tl : list Z -> res (list token)) (starts : list Z -> bool) (tw : Z) (input : list Z) (t : token)
        (l : loc) (before : list (list Z * list Z)) (cpre c0 n0 : list Z) (more : list (list Z * list Z)) (C1 L2 C2 : Z).
Hypothesis Ht : 0 < tw.
Hypothesis Hc : cursor tw input (t_text t) l before cpre.
Hypothesis Wf : well_formed_no_bom (t_text t).
Hypothesis LO : lines_of (t_text t) ((c0, n0) :: more).
Hypothesis N0 : c0 <> [].
Hypothesis El : l = LineCol (1 + Z.of_nat (length before)) C1.
Hypothesis Esp : t_src t = mkspan l (LineCol L2 C2).
Hypothesis HL : Z.of_nat (length more) <= L2 - (1 + Z.of_nat (length before)).
Hypothesis Hs : forall c n, In (c, n) more -> is_new_statement_line tl c = Ok (starts c).

Lemma Hkept : firstn (Z.to_nat (L2 - (1 + Z.of_nat (length before)))) more = more.
Proof. apply firstn_all2. lia. Qed.
Lemma Hidx : index_columns 1 tw C1 (cpre ++ c0) = Ok (length cpre).
Proof.
  destruct Hc as [_ _ (C & E & EC) _ (cs & F & _ & Ecs) _]. rewrite El in E. injection E as <-. rewrite Ecs in *.
  apply index_columns_at; auto. apply clean_head; auto. pose proof (clean_lines _ _ LO Wf) as K. inversion K; auto.
Qed.

(** one line only, or the next line starts a statement *)
Lemma cut_one : take_lines starts more = [] -> exists W, walk_columns 1 tw (cpre ++ c0) = Ok W /\
  reparse_token tl input tw t = Ok (mktok (t_kind t) (t_text t) c0 (mkspan l (LineCol (1 + Z.of_nat (length before)) W))).
Proof.
  intros E. pose proof (first_chunk_lc tl starts tw input (t_text t) l before cpre c0 n0 more C1 L2 C2 Ht Hc Wf LO N0 El ltac:(lia)) as K.
  cbv zeta in K. rewrite Hkept in K. specialize (K Hs [] (cpre ++ c0, n0) []). rewrite E in K.
  destruct (K eq_refl ltac:(destruct cpre; [auto|discriminate]) (Forall_nil _)) as (W & EW & Ef). exists W. split; auto.
  unfold reparse_token. rewrite Esp, Ef. rewrite El. cbn [rbind sp_start sp_end lines_at ln_content ln_off]. rewrite Hidx. cbn [rbind].
  destruct (lines_split _ _ LO [] c0 n0 more eq_refl) as (Et & Bc & D). cbn [text_of map concat app] in Et.
  destruct Hc as [T _ _ _ _ _].
  assert (Es : slice input (length (text_of before) + length cpre) (length (text_of before) + length (cpre ++ c0)) = Ok c0).
  { unfold slice. rewrite app_length. replace (_ <=? _)%nat with true by (symmetry; apply Nat.leb_le; lia).
    replace (is_char_boundary input (length (text_of before) + length cpre)) with true.
    2:{ symmetry. rewrite T, app_assoc, <- (app_length (text_of before) cpre). apply boundary. pose proof (clean_head (t_text t)) as B. destruct (t_text t); auto. apply B; auto. discriminate. }
    replace (is_char_boundary input _) with true.
    2:{ symmetry. rewrite T, Et, !app_assoc. rewrite <- (app_assoc _ n0). rewrite Nat.add_assoc, <- !app_length. apply boundary.
        destruct D as [(-> & -> & _)|[-> |[-> | ->]]]; cbn; auto. }
    cbn [andb]. f_equal. rewrite T, app_assoc, <- (app_length (text_of before) cpre), skipn_app, skipn_all, Nat.sub_diag. cbn [skipn app].
    rewrite Et. replace (length (text_of before) + (length cpre + length c0) - length (text_of before ++ cpre))%nat with (length c0 + 0)%nat by (rewrite app_length; lia).
    rewrite firstn_app_2. cbn. apply app_nil_r. }
  rewrite Es. cbn [rmap rbind]. f_equal. f_equal.
  - rewrite T, app_assoc, <- (app_length (text_of before) cpre), skipn_app, skipn_all, Nat.sub_diag. reflexivity.
  - cbn [length]. rewrite Z.add_0_r. reflexivity.
Qed.

(** all further lines are empty *)
Lemma cut_blank : take_lines starts more <> [] -> Forall (fun p => fst p = []) (take_lines starts more) -> reparse_token tl input tw t = Panic.
Proof.
  intros E F. pose proof (first_chunk_lc tl starts tw input (t_text t) l before cpre c0 n0 more C1 L2 C2 Ht Hc Wf LO N0 El ltac:(lia)) as K.
  cbv zeta in K. rewrite Hkept in K. specialize (K Hs [] (cpre ++ c0, n0) (take_lines starts more)).
  destruct (K eq_refl ltac:(destruct cpre; [auto|discriminate]) F) as (W & EW & Ef).
  unfold reparse_token. rewrite Esp, Ef. rewrite El. cbn [rbind sp_start sp_end lines_at ln_content ln_off]. rewrite Hidx. cbn [rbind].
  destruct (take_lines starts more) as [|[c n] r]; [congruence|]. reflexivity.
Qed.

(** otherwise *)
Lemma cut_more : forall mid g m blanks pre c n, take_lines starts more = mid ++ (g, m) :: blanks -> g <> [] -> Forall (fun p => fst p = []) blanks ->
  (c0, n0) :: mid = pre ++ [(c, n)] -> exists W, walk_columns 1 tw g = Ok W /\
  reparse_token tl input tw t =
    Ok (mktok (t_kind t) (t_text t) (text_of pre ++ c) (mkspan l (LineCol (1 + Z.of_nat (length before) + Z.of_nat (1 + length mid)) W))).
Proof.
  intros mid g m blanks pre c n E Hg F Ep.
  pose proof (first_chunk_lc tl starts tw input (t_text t) l before cpre c0 n0 more C1 L2 C2 Ht Hc Wf LO N0 El ltac:(lia)) as K.
  cbv zeta in K. rewrite Hkept in K. specialize (K Hs ((cpre ++ c0, n0) :: mid) (g, m) blanks). rewrite E in K.
  destruct (K eq_refl Hg F) as (W & EW & Ef). exists W. split; [exact EW|].
  unfold reparse_token. rewrite Esp, Ef. rewrite El. cbn [rbind sp_start sp_end lines_at ln_content ln_off]. rewrite Hidx. cbn [rbind].
  rewrite lines_at_app. cbn [length].
  set (off := (length (text_of before) + length (cpre ++ c0) + length n0)%nat).
  replace (match lines_at off mid ++ lines_at (off + length (text_of mid)) ((g, m) :: blanks) with [] => _ | _ => _ end)
    with (Ok (length (text_of before) + length cpre + length (text_of pre ++ c))%nat).
  2:{ replace (S (length mid) <? 1)%nat with false by (symmetry; apply Nat.ltb_ge; lia).
      replace (S (length mid) - 1)%nat with (length (lines_at off mid) + 0)%nat by (rewrite lines_at_length; lia). rewrite firstn_app_2.
      cbn [firstn]. rewrite app_nil_r.
      replace (last (lines_at off mid) (mkline (length (text_of before)) (cpre ++ c0) n0))
        with (last (lines_at (length (text_of before)) ((cpre ++ c0, n0) :: mid)) (mkline 0 [] [])).
      2:{ cbn [lines_at]. rewrite last_cons. reflexivity. }
      transitivity (Ok (length (text_of before) + length cpre + length (text_of pre ++ c))%nat : res nat); auto.
      destruct pre as [|p pre].
      - injection Ep as <- <- ->. cbn. destruct (lines_at _ _); cbn; rewrite ?app_length; f_equal; lia.
      - injection Ep as <- ->. change ((cpre ++ c0, n0) :: pre ++ [(c, n)]) with (((cpre ++ c0, n0) :: pre) ++ [(c, n)]). rewrite last_lines_at.
        cbn [ln_off ln_content].
        assert (X : length (text_of ((cpre ++ c0, n0) :: pre)) = (length cpre + length (text_of ((c0, n0) :: pre)))%nat).
        { unfold text_of. cbn [map concat]. unfold whole at 1 3. cbn [fst snd]. rewrite !app_length. lia. }
        rewrite X. cbn [lines_at].
        destruct (lines_at off (pre ++ [(c, n)]) ++ _) eqn:Eq; [apply app_eq_nil in Eq as [_ Eq]; discriminate|]. f_equal. rewrite app_length. lia. }
  cbn [rbind].
  assert (Em : more = mid ++ (g, m) :: blanks ++ skipn (length (take_lines starts more)) more).
  { assert (X : forall q, q = take_lines starts q ++ skipn (length (take_lines starts q)) q).
    { induction q as [|x q IH]; auto. cbn. destruct (starts (fst x)); auto. cbn. f_equal. auto. }
    rewrite (X more) at 1. rewrite E, <- app_assoc. reflexivity. }
  set (others := skipn (length (take_lines starts more)) more) in *.
  assert (El2 : (c0, n0) :: more = pre ++ (c, n) :: ((g, m) :: blanks ++ others)).
  { rewrite Em, app_comm_cons, Ep, <- app_assoc. reflexivity. }
  destruct (lines_split _ _ LO pre c n _ El2) as (Et & Bc & D).
  destruct Hc as [T _ _ _ _ _].
  assert (Es : slice input (length (text_of before) + length cpre) (length (text_of before) + length cpre + length (text_of pre ++ c)) = Ok (text_of pre ++ c)).
  { unfold slice. replace (_ <=? _)%nat with true by (symmetry; apply Nat.leb_le; lia).
    replace (is_char_boundary input (length (text_of before) + length cpre)) with true.
    2:{ symmetry. rewrite T, app_assoc, <- (app_length (text_of before) cpre). apply boundary. pose proof (clean_head (t_text t)) as B. destruct (t_text t); auto. apply B; auto. discriminate. }
    replace (is_char_boundary input _) with true.
    2:{ symmetry. assert (Ei : input = (text_of before ++ cpre ++ text_of pre ++ c) ++ (n ++ text_of ((g, m) :: blanks ++ others)))
          by (rewrite T, Et, <- !app_assoc; reflexivity).
        replace (length (text_of before) + length cpre + length (text_of pre ++ c))%nat with (length (text_of before ++ cpre ++ text_of pre ++ c))
          by (rewrite !app_length; lia).
        rewrite Ei. apply boundary.
        destruct D as [(_ & D & _)|[-> |[-> | ->]]]; [discriminate| | |]; reflexivity. }
    cbn [andb]. f_equal. rewrite T, app_assoc, <- (app_length (text_of before) cpre), skipn_app, skipn_all, Nat.sub_diag. cbn [skipn app].
    rewrite Et. rewrite (app_assoc (text_of pre) c).
    replace (length (text_of before ++ cpre) + length (text_of pre ++ c) - length (text_of before ++ cpre))%nat with (length (text_of pre ++ c) + 0)%nat by lia.
    rewrite firstn_app_2. cbn. apply app_nil_r. }
  rewrite Es. cbn [rmap rbind]. f_equal. f_equal.
  rewrite T, app_assoc, <- (app_length (text_of before) cpre), skipn_app, skipn_all, Nat.sub_diag. reflexivity.
Qed.
End Cut.

(** ** A line break is a token by itself *)
Ltac decide_if := match goal with |- (if ?c then _ else _) = _ =>
  let v := eval vm_compute in c in (replace c with v by (vm_compute; reflexivity)); cbn iota end.
Lemma twl_break : forall bs c w r, clean_step bs c w r -> is_line_end c = true -> twl bs = Some (wl c, r).
Proof.
  intros bs c w r H E.
  assert (D : dchar (decode bs) = c /\ drest (decode bs) = r /\ (c = 10 \/ c = 13 \/ c = CRLF)).
  { destruct H as [r|c r S N].
    - auto.
    - unfold is_line_end in E. destruct (Z.eqb_spec c 10) as [->|]; [auto|]. destruct (Z.eqb_spec c 13) as [->|].
      + change (utf8 13) with [13]. cbn [app]. specialize (N eq_refl). destruct r as [|x r]; [auto|]. cbn [hd] in N.
        split; [|split; auto]; unfold decode; cbn [between Z.leb Z.compare andb orb Z.eqb Pos.eqb Pos.compare Pos.compare_cont];
        (destruct (Z.eqb_spec x 10); [congruence|]; reflexivity).
      + cbn [orb] in E. apply Z.eqb_eq in E. unfold scalar, CRLF_CHAR in *. lia. }
  destruct D as (D1 & D2 & D3). unfold twl. rewrite twf_unfold. unfold wld. rewrite D1, D2.
  destruct D3 as [->|[->| ->]]; reflexivity.
Qed.
Lemma dispatch_newline : forall o s c pol, is_line_end c = true -> dispatch o s (wl c) pol = mk_token (newline_with_policy pol) s.
Proof.
  intros o s c pol E. unfold is_line_end in E. apply orb_prop in E as [E|E]; [apply orb_prop in E as [E|E]|]; apply Z.eqb_eq in E; subst c.
  - unfold dispatch, nextToken_uncommon. cbv zeta. repeat decide_if. reflexivity.
  - unfold dispatch, nextToken_uncommon. cbv zeta. repeat decide_if. reflexivity.
  - unfold dispatch, nextToken_uncommon. cbv zeta. repeat decide_if. reflexivity.
Qed.
Lemma nextToken_newline : forall o pol s c w r, Inv o s -> p_scan pol = false -> clean_step (rest (cur s)) c w r -> is_line_end c = true ->
  po (nextToken o pol) s (fun t _ => t_kind t = newline_with_policy pol /\ t_text t = w).
Proof.
  intros o pol s c w r HI Hp H E. unfold nextToken. apply po_mark. apply po_nextWL; auto. intros c1 s1 I1 E1.
  rewrite (twl_break _ _ _ _ H E) in E1. injection E1 as <- E1. rewrite dispatch_newline by auto.
  apply po_mk_token. intros t T1 T2 _. split; auto. rewrite T2, <- E1. destruct H; apply buf_between_app || (change (13 :: 10 :: r) with ([13; 10] ++ r); apply buf_between_app).
Qed.

(** ** The tokens of a text *)
Lemma token_place : forall o n s ts s', Inv o s -> tokens_loop o n s = Ok (ts, s') -> forall pre t post, ts = pre ++ t :: post ->
  exists st1 s1 k, Inv o st1 /\ R o s st1 /\ ask o top_req st1 = Ok (t, s1) /\ asked o top_req st1 t s1 /\ t_kind t <> TK_EndOfFile /\
    tokens_loop o k (mkst (after t) (lg s1)) = Ok (post, s').
Proof.
  intros o n. induction n as [|n IH]; intros s ts s' HI H pre t post E; [discriminate|].
  cbn [tokens_loop] in H. rewrite peek_token_ask in H. unfold bind in H.
  destruct (ask o top_req s) as [[u s1]| |] eqn:Ea; try discriminate. destruct (asked_of o top_req s u s1 HI eq_refl Ea) as [I1 A].
  destruct (Z.eqb_spec (t_kind u) TK_EndOfFile) as [Ek|Nk].
  - injection H as <- <-. destruct pre; discriminate.
  - rewrite skip_eq in H. destruct (tokens_loop o n _) as [[ts' s2]| |] eqn:El; try discriminate. injection H as <- <-.
    destruct pre as [|p pre].
    + injection E as -> ->. exists s, s1, n. split; [auto|]. split; [apply R_refl|]. auto.
    + injection E as -> ->. pose proof A as (_ & I2 & R2 & _). destruct (IH _ _ _ I2 El _ _ _ eq_refl) as (st1 & s3 & k & J1 & J2 & J3).
      exists st1, s3, k. split; auto. split; auto. eapply R_trans; eauto.
Qed.
Lemma open_last : forall o n s ts s', Inv o s -> tokens_loop o n s = Ok (ts, s') -> forall pre t post, ts = pre ++ t :: post ->
  isUnterminated (t_kind t) = true -> post = [] /\ rest (after t) = [].
Proof.
  intros o n s ts s' HI H pre t post E U. destruct (token_place o n s ts s' HI H pre t post E) as (st1 & s1 & k & J1 & J2 & J3 & J4 & J5 & J6).
  pose proof J4 as (A1 & A2 & A3 & A4 & A5 & A6 & A7). pose proof (open_kind _ _ _ _ A7 U) as Er. split; auto.
  apply tokens_loop_step in J6 as (u & s2 & B1 & B2). destruct (asked_of o top_req _ u s2 A2 eq_refl B1) as [_ B]. destruct B as (_ & _ & _ & _ & B5 & _ & B7).
  cbn [cur] in B5. rewrite Er in B5. symmetry in B5. apply app_eq_nil in B5 as [B5 _].
  destruct B2 as [(_ & -> & _)|(Nk & _)]; auto. exfalso. destruct B7 as [(_ & B7 & _)|[(g & pl & _ & B7 & _)|(_ & _ & [B7|B7])]]; try discriminate; auto.
Qed.
Lemma raw_flag : forall o b input ts s', 0 < o_tab_width o -> tokenize_raw o b input = Ok (ts, s') ->
  (l_flag (lg s') = None <-> well_formed_no_bom input).
Proof.
  intros o b input ts s' Ht E. pose proof (reader_new_Inv o input Ht) as HI. set (s := reader_new o input) in *.
  assert (RR : exists s1, Inv o s1 /\ R o s s' /\ at_end o s').
  { unfold tokenize_raw, run_tokens, bind in E. fold s in E. pose proof (handle_first_line_ok o b s s HI (R_refl _ _)) as H. unfold wpr in H.
    destruct (handle_first_line o b s) as [[[] s1]| |]; [|discriminate|discriminate]. destruct H as (I1 & R1 & sk & T1 & F1 & K1).
    pose proof (tokens_loop_ok o (S (length (rest (cur s1)))) s s1 I1 R1) as H. unfold wpr in H. unfold with_fuel in *.
    rewrite E in H. destruct H as (I2 & R2 & T2 & F2 & E2); [lia|]. exists s'. auto. }
  destruct RR as (_ & _ & R1 & s1 & t & Ec & I1 & Ea & Ek & _). split.
  - intros Ef. destruct (asked_of o top_req s1 t s' I1 eq_refl Ea) as [_ (_ & _ & A3 & _ & _ & _ & A7)].
    assert (Er : rest (after t) = []).
    { eapply eof_kind; [exact A7|]. rewrite Ek. reflexivity. }
    destruct R1 as ((cs & M & U) & _). destruct A3 as ((ds & M2 & U2) & _). cbn [cur] in M2. rewrite Er in M2. unfold lflag in *.
    rewrite Ec in M2. pose proof (moves_trans _ _ _ _ _ _ _ _ _ M M2) as MM. apply clean_iff in MM. apply MM. cbn [lg] in U2.
    rewrite existsb_app. apply orb_false_iff. split; [destruct (existsb unsafe_char cs); auto; exfalso; apply U; auto|destruct (existsb unsafe_char ds); auto; exfalso; apply U2; auto].
  - intros W. destruct (l_flag (lg s')) eqn:Ef; auto. exfalso. destruct R1 as (_ & _ & D). destruct D as [D|D]; [unfold lflag; congruence|apply D; reflexivity|].
    destruct (moves_to_end o (rest (cur s)) (ploc (cur s))) as (cs & l' & M). pose proof (proj2 (clean_iff _ _ _ _ _ M) W) as F.
    destruct D as (o2 & l2 & ds2 & bs2 & l2' & M3 & U3). destruct (moves_chars_indep _ o _ _ _ _ _ M3 (ploc (cur s))) as [l3 M4].
    destruct (moves_det _ _ _ _ _ _ M4 _ _ M) as [es [E1 _]]. rewrite E1, existsb_app, U3 in F. discriminate.
Qed.
