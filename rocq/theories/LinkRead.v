(** Proofs for C58: reading back what was sent. *)
From Coq Require Import String Ascii.
From Coq Require Import ZArith List Bool Lia.
From Verif Require Import Base Source GenTokenKind GenSymbols TokenKind LongNames Cst Ast Utils BoxPosition BoxProofs Link SpecLink CstProofs LinkProofs.
Import ListNotations.
Local Open Scope string_scope.
Local Open Scope list_scope.
Local Open Scope Z_scope.

(** ** Symbols *)

Lemma assoc_in : forall A k (l : list (Z * A)) v, assoc k l = Some v -> In (k, v) l.
Proof. intros A k l. induction l as [|[a w] l IH]; intros v E; cbn in E; [discriminate E|]. destruct (Z.eqb_spec k a) as [->|_]; [injection E as ->; left; reflexivity|right; auto]. Qed.
Definition kinds_back : bool := forallb (fun '(k, s) => match tk_from_symbol s with Some k' => k' =? newline_told k | None => false end) KIND_SYMBOL.
Lemma kinds_back_b : kinds_back = true. Proof. vm_compute. reflexivity. Qed.
Lemma kind_read : forall k s, tk_to_symbol k = Some s -> kind_of (ESym s) = some (newline_told k).
Proof.
  intros k s E. apply assoc_in in E. pose proof (proj1 (forallb_forall _ _) kinds_back_b _ E) as B. cbn beta iota in B. unfold kind_of. cbn [as_symbol].
  destruct (tk_from_symbol s) as [k'|]; [|discriminate B]. apply Z.eqb_eq in B. subst. reflexivity.
Qed.
Definition family_back (f : family) : bool := forallb (fun '(k, s) => match op_from_symbol f s with Some k' => k' =? k | None => false end) (f_to f).
Lemma op_read : forall f op s, family_back f = true -> op_to_symbol f op = Some s -> operator_of f (ESym s) = some op.
Proof.
  intros f op s H E. apply assoc_in in E. pose proof (proj1 (forallb_forall _ _) H _ E) as B. cbn beta iota in B. unfold operator_of. cbn [as_symbol].
  destruct (op_from_symbol f s) as [k'|]; [|discriminate B]. apply Z.eqb_eq in B. subst. reflexivity.
Qed.
Lemma families_back : forall k, family_back (family_of k) = true. Proof. intros []; vm_compute; reflexivity. Qed.
Lemma call_family_back : family_back call_family = true. Proof. vm_compute. reflexivity. Qed.

Lemma has_tick_app : forall a b, has_tick (a ++ b) = has_tick a || has_tick b.
Proof. intros a b. induction a as [|c a IH]; cbn [has_tick append]; [reflexivity|]. rewrite IH, orb_assoc. reflexivity. Qed.
Lemma split_plain : forall n, has_tick n = false -> split_symbol n = ("", n).
Proof. intros [|c n] H; [reflexivity|]. cbn [split_symbol has_tick] in *. apply orb_false_iff in H as [H1 H2]. rewrite H1, H2. reflexivity. Qed.
Lemma split_context : forall ctx n, has_tick n = false -> split_symbol (ctx ++ "`" ++ n)%string = ((ctx ++ "`")%string, n).
Proof.
  intros ctx n H. induction ctx as [|c ctx IH].
  - cbn [append]. cbn [split_symbol]. rewrite H. reflexivity.
  - cbn [append split_symbol]. replace (has_tick (ctx ++ String "`" n)) with true by (rewrite has_tick_app; cbn [has_tick]; rewrite orb_true_r; reflexivity).
    cbn [append] in IH. rewrite IH. reflexivity.
Qed.
Lemma box_names_plain : forall s, In s BOX_NAMES -> has_tick s = false /\ ends_with "Box" s = true /\ existsb (String.eqb s) BOX_NAMES = true.
Proof.
  assert (X : forallb (fun s => if has_tick s then false else if ends_with "Box" s then existsb (String.eqb s) BOX_NAMES else false) BOX_NAMES = true) by (vm_compute; reflexivity).
  intros s H. pose proof (proj1 (forallb_forall _ _) X _ H) as B. cbn beta in B. destruct (has_tick s); [discriminate B|]. destruct (ends_with "Box" s); [auto|discriminate B].
Qed.
Lemma box_kind_read : forall k s, box_symbol k s -> box_readable k -> box_kind_of (ESym s) = some k.
Proof.
  intros k s B R. unfold box_kind_of. cbn [as_symbol]. destruct k as [n|ctx n]; cbn [box_symbol] in B; cbn [box_readable] in R.
  - subst s. destruct (box_names_plain n R) as (H1 & H2 & H3). rewrite (split_context "System" n H1 : split_symbol ("System`" ++ n)%string = ("System`", n)).
    change (String.eqb "System`" "System`") with true. cbn [negb]. rewrite H2, H3. reflexivity.
  - destruct B as [-> ->]. destruct R as (_ & H1 & H2 & H3). unfold plain_name in H1. rewrite (split_context "System" n H1 : split_symbol ("System`" ++ n)%string = ("System`", n)).
    change (String.eqb "System`" "System`") with true. cbn [negb]. rewrite H2. cbn [negb]. replace (existsb (String.eqb n) BOX_NAMES) with false; [reflexivity|].
    symmetry. apply not_true_is_false. intros E. apply existsb_exists in E as (x & Hx & Ex). apply String.eqb_eq in Ex. subst x. contradiction.
Qed.
Lemma error_read : forall e, syntax_error_of (ESym (error_symbol e)) = some e. Proof. intros []; vm_compute; reflexivity. Qed.

Lemma string_of_bytes_of_string : forall s, string_of_bytes (bytes_of_string s) = s.
Proof.
  induction s as [|a s IH]; [reflexivity|]. cbn [bytes_of_string string_of_bytes]. f_equal; [|exact IH].
  rewrite Nat2Z.id. apply Ascii.ascii_nat_embedding.
Qed.

(** ** Positions *)

Lemma collect_ints : forall l, Forall (Z.le 0) l -> collectf index_of_expr (map EInt l) = some l.
Proof.
  intros l F. induction F as [|n l H F IH]; [reflexivity|]. cbn [map collectf]. unfold index_of_expr at 1. rewrite (proj2 (Z.leb_le 0 n) H). cbn [fbind rbind some]. fold (@collectf expr Z index_of_expr).
  rewrite IH. reflexivity.
Qed.
Lemma ints_read : forall l, Forall (Z.le 0) l -> indexes_of (ints l) = some l.
Proof. intros l F. unfold indexes_of. change (normal_with_head "System`List" (ints l)) with (some (map EInt l)). cbn [fbind rbind some]. apply collect_ints. exact F. Qed.
Lemma pos_read : forall n, u32 n -> pos_of (EInt n) = Some n.
Proof. intros n [H1 H2]. unfold pos_of. rewrite (proj2 (Z.leb_le 0 n) H1), (proj2 (Z.ltb_lt n _) H2). reflexivity. Qed.
Lemma source_read : forall c k s p, position_in k s -> position_form s p -> s <> SUnknown -> source_of c (Some k) p = some s.
Proof.
  intros c k s p [HB HT] F N.
  assert (D : in_boxes k /\ boxes k = true \/ ~ in_boxes k /\ boxes k = false) by (destruct k; cbn; unfold in_boxes; first [left; tauto|right; split; [intros [X|X]; discriminate X|reflexivity]]).
  destruct D as [[D E]|[D E]].
  - specialize (HB D). destruct HB as [|l G|l G|l G]; [congruence|inversion F; subst..].
    + unfold source_of, ints. change (headed_one _ (fn "System`List" (map EInt l))) with (@some (option expr) None) at 1. cbn [fbind rbind some].
      change (headed_one "System`Before" (fn "System`List" (map EInt l))) with (@some (option expr) None). cbn [fbind rbind some].
      change (normal_with_head "System`List" (fn "System`List" (map EInt l))) with (some (map EInt l)). cbn [fbind rbind some]. rewrite E. fold (ints l). rewrite (ints_read l G). reflexivity.
    + unfold source_of. change (headed_one "System`After" (fn "System`Before" [ints l])) with (@some (option expr) None). cbn [fbind rbind some].
      change (headed_one "System`Before" (fn "System`Before" [ints l])) with (some (Some (ints l))). cbn [fbind rbind some]. rewrite (ints_read l G). reflexivity.
    + unfold source_of. change (headed_one "System`After" (fn "System`After" [ints l])) with (some (Some (ints l))). cbn [fbind rbind some]. rewrite (ints_read l G). reflexivity.
  - specialize (HT D). destruct HT as [|a b x y A1 A2 A3 A4 U1 U2 U3 U4 O|a b U1 A U2]; [congruence|inversion F; subst..].
    + unfold source_of. do 2 (change (headed_one _ (fn "System`List" [ints [a; b]; ints [x; y]])) with (@some (option expr) None) at 1; cbn [fbind rbind some]).
      change (normal_with_head "System`List" (fn "System`List" [ints [a; b]; ints [x; y]])) with (some [ints [a; b]; ints [x; y]]). cbn [fbind rbind some]. rewrite E.
      change (pos_of (ints [a; b])) with (@None Z). cbv iota beta.
      change (normal_with_head "System`List" (ints [a; b])) with (some [EInt a; EInt b]). change (normal_with_head "System`List" (ints [x; y])) with (some [EInt x; EInt y]). cbn [fbind rbind some].
      rewrite (pos_read a U1), (pos_read b U2), (pos_read x U3), (pos_read y U4). unfold of_option. cbn [fbind rbind]. unfold span_from_raw.
      rewrite (proj2 (Z.eqb_neq a 0)), (proj2 (Z.eqb_neq b 0)), (proj2 (Z.eqb_neq x 0)), (proj2 (Z.eqb_neq y 0)) by lia. cbn [negb andb].
      replace (loc_leb (LineCol a b) (LineCol x y)) with (Some true); [reflexivity|].
      cbn [loc_leb]. symmetry. f_equal. destruct O as [O|[-> O]]; [rewrite (proj2 (Z.ltb_lt _ _) O); reflexivity|]. rewrite Z.ltb_irrefl, Z.eqb_refl, (proj2 (Z.leb_le _ _) O). reflexivity.
    + assert (Ub : u32 (b - 1)) by (unfold u32 in *; lia).
      unfold source_of, ints. cbn [map]. do 2 (change (headed_one _ (fn "System`List" [EInt a; EInt (b - 1)])) with (@some (option expr) None) at 1; cbn [fbind rbind some]).
      change (normal_with_head "System`List" (fn "System`List" [EInt a; EInt (b - 1)])) with (some [EInt a; EInt (b - 1)]). cbn [fbind rbind some]. rewrite E.
      rewrite (pos_read a U1), (pos_read (b - 1) Ub). unfold of_option. cbn [fbind rbind].
      rewrite (proj2 (Z.eqb_neq (b - 1) (2 ^ 32 - 1))) by (unfold u32 in U2; lia). rewrite Z.sub_add. reflexivity.
    + lia.
Qed.

(** ** The source of a node *)

Definition bp_nonneg (p : box_position) : Prop := match p with BAt l | BBefore l | BAfter l | BSpanning l _ => Forall (Z.le 0) l end.
Definition in_box (s : wsource) : Prop := s = SUnknown \/ exists p, s = SBox p /\ bp_nonneg p.
Lemma box_place_in : forall s, box_place s -> in_box s.
Proof. intros s []; [left; reflexivity|right; eexists; split; [reflexivity|assumption]..]. Qed.
Lemma split_last_nonneg : forall l x m, split_last l = Some (x, m) -> Forall (Z.le 0) l -> Forall (Z.le 0) m.
Proof. intros l x m E F. apply split_last_some in E. subst l. apply Forall_app in F. tauto. Qed.
Lemma most_nonneg : forall l m, most_slice l = Some m -> Forall (Z.le 0) l -> Forall (Z.le 0) m.
Proof. intros l m E F. apply most_slice_some in E as (x & ->). apply Forall_app in F. tauto. Qed.
Lemma combine_nonneg : forall l a b p, combine l a b = Ok p -> Forall (Z.le 0) l -> bp_nonneg p.
Proof.
  intros l a b p E F. unfold combine in E. destruct a as [a|a]; [|discriminate E]. destruct b as [b|[x y]].
  - destruct (a =? 1).
    + destruct (most_slice l) as [m|] eqn:Em; [|discriminate E]. injection E as <-. exact (most_nonneg _ _ Em F).
    + destruct (a =? 2); [|discriminate E]. injection E as <-. exact F.
  - destruct ((a =? 1) && (x =? 2)); [|discriminate E]. destruct (most_slice l) as [m|] eqn:Em; [|discriminate E]. injection E as <-. exact (most_nonneg _ _ Em F).
Qed.
Lemma firstn_nonneg : forall n l, Forall (Z.le 0) l -> Forall (Z.le 0) (firstn n l).
Proof. intros n l F. rewrite <- (firstn_skipn n l) in F. apply Forall_app in F. tauto. Qed.
Lemma common_nonneg : forall s e r p, common_prefix s e = Ok r -> bp_nonneg s -> bp_nonneg e ->
  match r with Done r => Ok r | Common l a b => rmap Some (combine l a b) end = Ok (Some p) -> bp_nonneg p.
Proof.
  intros s e r p E Hs He Ep. destruct r as [r|l a b].
  - injection Ep as ->. unfold common_prefix in E.
    destruct s as [s|s [s1 s2]|s|s], e as [e|e [e1 e2]|e|e]; try discriminate E.
    all: try (destruct (split_last s) as [[? ?]|], (split_last e) as [[? ?]|]; try discriminate E; try (destruct (zlist_eqb _ _); discriminate E); injection E as <-; constructor).
  - assert (F : Forall (Z.le 0) l).
    { unfold common_prefix in E. destruct s as [s|s [s1 s2]|s|s], e as [e|e [e1 e2]|e|e]; try discriminate E.
      all: try (destruct (split_last s) as [[x m]|] eqn:E1, (split_last e) as [[? ?]|]; try discriminate E; destruct (zlist_eqb _ _); try discriminate E; injection E as <- <- <-; exact (split_last_nonneg _ _ _ E1 Hs)). }
    destruct (combine l a b) as [q| |] eqn:Ec; try discriminate Ep. injection Ep as <-. exact (combine_nonneg _ _ _ _ Ec F).
Qed.
Lemma between_nonneg : forall s e p, BoxPosition.between s e = Ok (Some p) -> bp_nonneg s -> bp_nonneg e -> bp_nonneg p.
Proof.
  intros s e p E Hs He. unfold BoxPosition.between in E. destruct (bp_eqb s e); [injection E as <-; exact Hs|].
  assert (X : bp_nonneg (fst (normalize s e)) /\ bp_nonneg (snd (normalize s e))).
  { unfold normalize. destruct s as [s| | |]; auto. destruct e as [e| | |]; auto. destruct (_ =? _)%nat; auto. destruct (most_slice s); auto. destruct (most_slice _); auto. destruct (zlist_eqb _ _); auto.
    split; [exact Hs|]. cbn. apply firstn_nonneg. exact He. }
  destruct (normalize s e) as [s' e']. destruct X as [X1 X2]. cbn [fst snd] in *. destruct (common_prefix s' e') as [r| |] eqn:Ec; try discriminate E. cbn [rbind] in E. exact (common_nonneg _ _ _ _ Ec X1 X2 E).
Qed.

Lemma enclosing_box : forall a b s, enclosing a b s -> in_box a -> in_box b -> in_box s.
Proof.
  intros a b s H Ha Hb. destruct H as [| |a b _ _|a b p E|a b E].
  - left; reflexivity.
  - left; reflexivity.
  - destruct Ha as [Ha|(p & Ha & _)]; discriminate Ha.
  - destruct Ha as [Ha|(p1 & Ha & N1)]; [discriminate Ha|]. destruct Hb as [Hb|(p2 & Hb & N2)]; [discriminate Hb|]. injection Ha as <-. injection Hb as <-.
    right. exists p. split; [reflexivity|]. exact (between_nonneg _ _ _ E N1 N2).
  - left; reflexivity.
Qed.
Lemma text_order : forall a b c d, loc_leb (LineCol a b) (LineCol c d) = Some true -> a < c \/ a = c /\ b <= d.
Proof. intros a b c d E. cbn in E. injection E as E. destruct (Z.ltb_spec a c); [left; lia|]. destruct (Z.eqb_spec a c); [|discriminate E]. cbn in E. right. lia. Qed.
Lemma enclosing_text : forall a b s, enclosing a b s -> text_position a -> text_position b -> text_position s.
Proof.
  intros a b s H Ha Hb. destruct H as [| |a b L1 L2|a b p E|a b E]; try (constructor; fail).
  - inversion Ha as [|x1 y1 z1 w1 A1 A2 A3 A4 U1 U2 U3 U4 O|x1 y1 U1 A U2]; subst; inversion Hb as [|x2 y2 z2 w2 B1 B2 B3 B4 V1 V2 V3 V4 P|x2 y2 V1 B V2]; subst; cbn [sp_start sp_end] in *.
    + apply text_order in L2. constructor; auto.
    + discriminate L1.
    + discriminate L1.
    + constructor; auto.
  - inversion Ha.
Qed.
Definition source_known (k : container_kind) (s : wsource) : Prop := (in_boxes k -> in_box s) /\ (~ in_boxes k -> text_position s).
Lemma position_known : forall k s, position_in k s -> source_known k s.
Proof. intros k s [H1 H2]. split; [intros D; apply box_place_in; auto|exact H2]. Qed.
Lemma enclosing_known : forall k a b s, enclosing a b s -> source_known k a -> source_known k b -> source_known k s.
Proof. intros k a b s H [A1 A2] [B1 B2]. split; intros D; [eapply enclosing_box; eauto|eapply enclosing_text; eauto]. Qed.
Lemma enclosing_source : forall a b s, enclosing a b s -> source_between a b = Ok s.
Proof.
  intros a b s [b'|a'|a' b' L1 L2|a' b' p E|a' b' E]; cbn [source_between].
  - reflexivity.
  - destruct a'; reflexivity.
  - unfold span_between. rewrite L1. unfold Span_new. rewrite L2. reflexivity.
  - rewrite E. reflexivity.
  - rewrite E. reflexivity.
Qed.

Lemma readable_children : forall k n, readable k n -> Forall (readable k) (node_children n).
Proof. intros k n []; cbn [node_children]; try constructor; auto. apply Forall_app. auto. Qed.
Lemma extent_known : forall k n s, extent n s -> readable k n -> source_known k s /\ node_source (told n) = Ok s.
Proof.
  intros k n. induction n as [n IH] using node_ind'. intros s E R. pose proof (readable_children k n R) as RC.
  assert (Q : forall l, Forall (fun n => forall s, extent n s -> readable k n -> source_known k s /\ node_source (told n) = Ok s) l -> Forall (readable k) l -> forall s, extents l s ->
    source_known k s /\ sources_span (map node_source (map told l)) = Ok s).
  { intros l F Rl s0 X. destruct X as [n0 a s0 X1 X2|n0 l m a b s0 X1 X2 X3].
    - apply Forall_inv in F, Rl. destruct (F a X1 Rl) as [K E1]. split; [exact (enclosing_known _ _ _ _ X2 K K)|]. cbn [map sources_span]. rewrite E1. cbn [rbind last]. apply enclosing_source. exact X2.
    - apply Forall_cons_iff in F as [F1 F]. apply Forall_app in F as [_ F]. apply Forall_inv in F. apply Forall_cons_iff in Rl as [R1 Rl]. apply Forall_app in Rl as [_ Rl]. apply Forall_inv in Rl.
      destruct (F1 a X1 R1) as [K1 E1]. destruct (F b X2 Rl) as [K2 E2]. split; [exact (enclosing_known _ _ _ _ X3 K1 K2)|].
      assert (L : last (map node_source (map told ((n0 :: l) ++ [m]))) Panic = Ok b) by (rewrite !map_app; cbn [map]; rewrite last_last; exact E2).
      change (map node_source (map told ((n0 :: l) ++ [m]))) with (node_source (told n0) :: map node_source (map told (l ++ [m]))) in L.
      cbn [map sources_span]. rewrite L, E1. cbn [rbind]. apply enclosing_source. exact X3. }
  destruct n as [tk t src|[l|x] m op b|er ch|kd op ch|bk ch src|e1 e2 src]; cbn [node_children] in *; inversion E; subst; cbn [told node_source]; inversion R; subst.
  - split; [apply position_known; assumption|reflexivity].
  - apply Forall_app in IH as [I1 I2]. apply Forall_app in RC as [R1 R2]. apply Forall_inv in I1, R1.
    match goal with X1 : extent _ ?a, X2 : extents _ ?b, X3 : enclosing ?a ?b _ |- _ => destruct (I1 a X1 R1) as [K1 E1]; destruct (Q _ I2 R2 b X2) as [K2 E2]; split; [exact (enclosing_known _ _ _ _ X3 K1 K2)|];
      cbn [map]; rewrite E1; cbn [rbind]; rewrite E2; cbn [rbind]; apply enclosing_source; exact X3 end.
  - apply Forall_app in IH as [I1 I2]. apply Forall_app in RC as [R1 R2]. apply Forall_inv in I1, R1.
    match goal with X1 : extent _ ?a, X2 : extents _ ?b, X3 : enclosing ?a ?b _ |- _ => destruct (I1 a X1 R1) as [K1 E1]; destruct (Q _ I2 R2 b X2) as [K2 E2]; split; [exact (enclosing_known _ _ _ _ X3 K1 K2)|];
      cbn [map]; rewrite E1; cbn [rbind]; rewrite E2; cbn [rbind]; apply enclosing_source; exact X3 end.
  - apply Q; auto.
  - apply Q; auto.
  - split; [apply position_known; assumption|reflexivity].
  - split; [apply position_known; assumption|reflexivity].
Qed.
Lemma extents_known : forall k l s, extents l s -> Forall (readable k) l -> source_known k s /\ sources_span (map node_source (map told l)) = Ok s.
Proof. intros k l s X R. exact (extent_known k (NSynErr ExpectedSymbol l) s (ex_error _ _ _ X) (rd_error _ _ _ R)). Qed.

(** ** Metadata *)

Definition key_of (f : field) : expr :=
  match f with
  | FSource => ESym "CodeParser`Source" | FIssues => ESym "CodeParser`SyntaxIssues" | FConf => ESym "System`ConfidenceLevel" | FActions => ESym "CodeParser`CodeActions"
  | FTabs => str "EmbeddedTabs" | FNewlines => str "EmbeddedNewlines" | FComplex => str "ComplexLineContinuations" | FSimple => str "SimpleLineContinuations"
  | FInsertion => str "InsertionText" | FReplacement => str "ReplacementText" | FFile => str "FileName" | FDescs => str "AdditionalDescriptions"
  end.
Definition entry (x : field * expr) : expr := rule (key_of (fst x)) (snd x).
Lemma field_of_key : forall f, field_of (key_of f) = Some f. Proof. intros []; vm_compute; reflexivity. Qed.
Lemma rules_entries : forall A (F : expr -> A) l, rules_of F (fn "System`Association" (map entry l)) = some (map (fun x => (key_of (fst x), F (snd x))) l).
Proof.
  intros A F l. unfold fn. cbn [rules_of]. change (String.eqb "System`Association" "System`Association") with true. cbv iota.
  induction l as [|[f v] l IH]; [reflexivity|]. cbn [map collectf]. change (rule_of F (entry (f, v))) with (some (key_of f, F v)). cbn [fbind rbind some]. rewrite IH. reflexivity.
Qed.
Lemma fields_entries : forall A (F : expr -> A) l, fields_of (map (fun x => (key_of (fst x), F (snd x))) l) = Ok (map (fun x => (fst x, F (snd x))) l).
Proof. intros A F l. induction l as [|[f v] l IH]; [reflexivity|]. cbn [map fields_of fst snd]. rewrite field_of_key, IH. reflexivity. Qed.
Lemma last_field_map : forall A B (F : A -> B) f l, last_field f (map (fun x => (fst x, F (snd x))) l) = option_map F (last_field f l).
Proof. intros A B F f l. induction l as [|[g v] l IH]; [reflexivity|]. cbn [map last_field fst snd]. rewrite IH. destruct (last_field f l); [reflexivity|]. destruct (field_eqb f g); reflexivity. Qed.
Lemma last_field_app : forall A f (a b : list (field * A)), last_field f (a ++ b) = match last_field f b with Some w => Some w | None => last_field f a end.
Proof. intros A f a b. induction a as [|[g v] a IH]; cbn [app last_field]; [destruct (last_field f b); reflexivity|]. rewrite IH. destruct (last_field f b); [reflexivity|]. reflexivity. Qed.

Local Notation "x <- e ;; k" := (fbind e (fun x => k)) (at level 61, e at next level, right associativity).
Definition issues_read (c : cfg) (ck : option container_kind) (e : expr) : fres (list wissue) :=
  match e with ENormal (ESym s) l => if String.eqb s "System`List" then collectf (issue_with (meta_of c ck)) l else err | _ => err end.
Definition actions_read (c : cfg) (ck : option container_kind) (e : expr) : fres (list action) :=
  match e with ENormal (ESym s) l => if String.eqb s "System`List" then collectf (action_with (meta_of c ck)) l else err | _ => err end.
Lemma meta_entries : forall c ck l, meta_of c ck (fn "System`Association" (map entry l)) =
  let get f := last_field f l in
  (source <- (match get FSource with Some r => source_of c ck r | None => some SUnknown end) ;;
   issues <- optional (get FIssues) (issues_read c ck) ;;
   conf <- optional (get FConf) (fun r => expect (of_option (number_of r))) ;;
   actions <- optional (get FActions) (actions_read c ck) ;;
   descs <- optional (get FDescs) strings_of ;;
   some (mk_wmeta source issues conf actions descs (get FFile) (get FTabs) (get FNewlines) (get FSimple) (get FComplex))).
Proof.
  intros c ck l. cbv zeta. set (F := fun r : expr => (r, (issues_read c ck r, actions_read c ck r))).
  assert (E : meta_of c ck (fn "System`Association" (map entry l)) =
    (rules <- rules_of F (fn "System`Association" (map entry l)) ;;
     rbind (fields_of rules) (fun fs =>
     let get f := match last_field f fs with Some (r, _) => Some r | None => None end in
     source <- (match get FSource with Some r => source_of c ck r | None => some SUnknown end) ;;
     issues <- optional (last_field FIssues fs) (fun x => fst (snd x)) ;;
     conf <- optional (get FConf) (fun r => expect (of_option (number_of r))) ;;
     actions <- optional (last_field FActions fs) (fun x => snd (snd x)) ;;
     descs <- optional (get FDescs) strings_of ;;
     some (mk_wmeta source issues conf actions descs (get FFile) (get FTabs) (get FNewlines) (get FSimple) (get FComplex))))) by reflexivity.
  rewrite E, rules_entries. cbn [fbind rbind some]. rewrite fields_entries. cbn [rbind]. cbv zeta.
  assert (G : forall f, match last_field f (map (fun x : field * expr => (fst x, F (snd x))) l) with Some (r, _) => Some r | None => None end = last_field f l)
    by (intros f; rewrite last_field_map; destruct (last_field f l); reflexivity).
  rewrite !G, !last_field_map. destruct (last_field FIssues l); destruct (last_field FActions l); reflexivity.
Qed.
Definition seg (f : field) (o : option expr) : list (field * expr) := match o with Some v => [(f, v)] | None => [] end.
Lemma last_seg : forall f g o, last_field f (seg g o) = if field_eqb f g then o else None.
Proof. intros f g [v|]; cbn [seg last_field]; [reflexivity|]. destruct (field_eqb f g); reflexivity. Qed.

(** *** Only a source *)
Definition only_source (s : wsource) : wmeta := mk_wmeta s None None None None None None None None None.
(** what is told of a source *)
Definition source_told (compat : bool) (s : wsource) : wsource := match s with SBox (BSpanning _ _) => if compat then SUnknown else s | _ => s end.
Lemma rule_entry : forall c k s rs, rule_form (compat c) s rs -> readable_mode c k -> source_known k s ->
  exists o, rs = map entry (seg FSource o) /\ match o with Some r => source_of c (Some k) r | None => some SUnknown end = some (source_told (compat c) s).
Proof.
  intros c k s rs F M [KB KT]. destruct F as [H|p H P].
  - exists None. split; [reflexivity|]. destruct H as [->|(-> & l & q & ->)]; reflexivity.
  - exists (Some p). split; [reflexivity|].
    assert (N : s <> SUnknown) by (intros ->; apply H; left; reflexivity).
    assert (T : source_told (compat c) s = s).
    { unfold source_told. destruct s as [|[| | |]|]; try reflexivity. destruct (compat c) eqn:E; [|reflexivity]. exfalso. apply H. right. eauto. }
    rewrite T. apply source_read; auto. split.
    + intros D. destruct (KB D) as [->|(q & -> & Q)]; [constructor|]. destruct q as [l|l [x y]|l|l]; try (constructor; exact Q).
      exfalso. destruct M as [M|(M & _)]; [contradiction|]. apply H. right. split; [exact M|eauto].
    + exact KT.
Qed.
Lemma source_meta_read : forall c k s m, source_form (compat c) s m -> readable_mode c k -> source_known k s -> meta_of c (Some k) m = some (only_source (source_told (compat c) s)).
Proof.
  intros c k s m (rs & F & ->) M K. destruct (rule_entry c k s rs F M K) as (o & -> & E). rewrite meta_entries. cbv zeta beta. rewrite !last_seg. cbn [field_eqb]. rewrite E. reflexivity.
Qed.
Lemma told_position : forall c k s, position_in k s -> source_told (compat c) s = s.
Proof. intros c k s [HB HT]. destruct s as [|[| | |]|]; try reflexivity. exfalso. destruct k; try (specialize (HT ltac:(intros [X|X]; discriminate X)); inversion HT; fail); specialize (HB ltac:(unfold in_boxes; tauto)); inversion HB. Qed.

(** ** Nodes *)

Lemma wsource_eqb_refl : forall s, wsource_eqb s s = true.
Proof.
  intros [s|[l|l [x y]|l|l]|]; cbn [wsource_eqb bp_eqb]; try reflexivity; try (apply zlist_eqb_eq; reflexivity).
  - destruct s as [[a b|a] [d e|d]]; unfold span_eqb; cbn [sp_start sp_end loc_eqb]; rewrite ?Z.eqb_refl; reflexivity.
  - rewrite (proj2 (zlist_eqb_eq l l) eq_refl), !Z.eqb_refl. reflexivity.
Qed.
Lemma text_told : forall c k s, readable_mode c k -> source_known k s -> strict c = true \/ asserts c = true -> source_told (compat c) s = s.
Proof. intros c k s [M|(_ & M1 & M2)] [_ K] [S|S]; try congruence; specialize (K M); destruct K; reflexivity. Qed.
Lemma compare_read : forall c k g s n, readable_mode c k -> source_known k s -> compare_src c g (Ok s) (source_told (compat c) s) n = some n.
Proof.
  intros c k g s n M K. unfold compare_src. destruct (strict c) eqn:S; [|reflexivity]. cbn [negb rbind]. rewrite (text_told c k s M K (or_introl S)), wsource_eqb_refl. reflexivity.
Qed.

Definition elements_read (c : cfg) (ck : option container_kind) (x : expr) : fres (list node) :=
  match x with ENormal (ESym xs) l => if String.eqb xs "System`List" then collectf (node_of c ck) l else err | _ => err end.
Lemma node_token_eq : forall c ck (b : bool) k t m, node_of c ck (fn (if b then "CodeParser`ErrorNode" else "CodeParser`LeafNode") [k; t; m]) =
  (k <- kind_of k ;; t <- of_option (as_string t) ;; m <- meta_of c ck m ;; some (NTok k t (md_source m))).
Proof. intros c ck [|] k t m; reflexivity. Qed.
Lemma node_op_eq : forall c ck k o x m, node_of c ck (fn (node_head k) [o; x; m]) =
  (op <- expect_if (fst (panics k)) (operator_of (family_of k) o) ;;
   ch <- expect_if (fst (panics k)) (elements_read c ck x) ;;
   m <- expect_if (snd (panics k)) (meta_of c ck m) ;;
   compare_src c (match k with KGroup => true | _ => false end) (sources_span (map node_source ch)) (md_source m) (NOp k op ch)).
Proof. intros c ck [] o x m; reflexivity. Qed.
Lemma node_error_eq : forall c ck k x m, node_of c ck (fn "CodeParser`SyntaxErrorNode" [k; x; m]) =
  (k <- syntax_error_of k ;; ch <- elements_read c ck x ;; m <- meta_of c ck m ;;
   if asserts c then rbind (sources_span (map node_source ch)) (fun src => if wsource_eqb src (md_source m) then some (NSynErr k ch) else Panic) else some (NSynErr k ch)).
Proof. reflexivity. Qed.
Lemma node_box_eq : forall c ck k x m, node_of c ck (fn "CodeParser`BoxNode" [k; x; m]) =
  (k <- expect (box_kind_of k) ;; ch <- expect (elements_read c ck x) ;; m <- meta_of c ck m ;; some (NBox k ch (md_source m))).
Proof. reflexivity. Qed.
Lemma node_code_eq : forall c ck a b m, node_of c ck (fn "CodeParser`CodeNode" [a; b; m]) = (m <- meta_of c ck m ;; some (NCode a b (md_source m))).
Proof. reflexivity. Qed.
Definition group_read (c : cfg) (ck : option container_kind) (miss : bool) (o x bm : expr) : fres (bool * Z * list node) :=
  o <- (if miss then operator_of call_family o else expect (operator_of call_family o)) ;;
  ch <- (if miss then elements_read c ck x else expect (elements_read c ck x)) ;;
  bm <- meta_of c ck bm ;;
  _ <- compare_src c (negb miss) (sources_span (map node_source ch)) (md_source bm) (NCall (Concrete []) miss o ch) ;;
  some (miss, o, ch).
Definition head_read (c : cfg) (ck : option container_kind) (h : expr) : fres (callhead node) :=
  match h with
  | ENormal (ESym hs) l => if String.eqb hs "System`List" then l <- expect (collectf (node_of c ck) l) ;; some (Concrete l) else n <- node_of c ck h ;; some (Aggregate n)
  | _ => n <- node_of c ck h ;; some (Aggregate n)
  end.
Lemma node_call_eq : forall c ck h (miss : bool) o x bm m,
  node_of c ck (fn "CodeParser`CallNode" [h; fn (if miss then "CodeParser`GroupMissingCloserNode" else "CodeParser`GroupNode") [o; x; bm]; m]) =
  (h <- head_read c ck h ;;
   b <- expect (group_read c ck miss o x bm) ;;
   match b with (missing, op, ch) => m <- meta_of c ck m ;; compare_src c false (node_source (NCall h missing op ch)) (md_source m) (NCall h missing op ch) end).
Proof. intros c ck h [|] o x bm m; reflexivity. Qed.

Lemma expect_some : forall A (a : A), expect (some a) = some a. Proof. reflexivity. Qed.
Lemma expect_if_some : forall A b (a : A), expect_if b (some a) = some a. Proof. intros A [|] a; reflexivity. Qed.
Lemma fbind_some : forall A B (a : A) (f : A -> fres B), fbind (some a) f = f a. Proof. reflexivity. Qed.

Lemma node_form_head : forall cm ab n e, node_form cm ab n e -> exists h args, e = fn h args /\ String.eqb h "System`List" = false /\ String.eqb h "System`Association" = false /\ String.eqb h "System`Missing" = false.
Proof.
  intros cm ab n e H. destruct H; eexists _, _; (split; [reflexivity|]).
  - destruct (isError k); auto.
  - destruct k; auto.
  - auto.
  - auto.
  - auto.
  - auto.
Qed.

Lemma elements_collect : forall c k l es, elements_form (compat c) false l es ->
  Forall (fun n => forall e, node_form (compat c) false n e -> readable k n -> node_of c (Some k) e = some (told n)) l -> Forall (readable k) l ->
  collectf (node_of c (Some k)) es = some (map told l).
Proof.
  intros c k l. induction l as [|n l IH]; intros es E F R; inversion E as [|n' e' l' es' E1 E2|n' l' es' E1 E2]; subst; [reflexivity| |discriminate E1].
  apply Forall_cons_iff in F as [F1 F]. apply Forall_cons_iff in R as [R1 R]. cbn [collectf map]. rewrite (F1 _ E1 R1). cbn [fbind rbind some]. fold (@collectf expr node (node_of c (Some k))). rewrite (IH _ E2 F R). reflexivity.
Qed.

Lemma node_read : forall c k n e, readable_mode c k -> node_form (compat c) false n e -> readable k n -> node_of c (Some k) e = some (told n).
Proof.
  intros c k n e M. revert e. induction n as [n IH] using node_ind'. intros e F R.
  pose proof (readable_children k n R) as RC.
  assert (Q : forall l x, incl l (node_children n) -> seq_form (compat c) false l x -> elements_read c (Some k) x = some (map told l)).
  { intros l x Hl Hx. inversion Hx as [l' es E]; subst. cbn [elements_read fn]. change (String.eqb "System`List" "System`List") with true. cbv iota.
    apply (elements_collect c k l es E); rewrite Forall_forall in *; intros m Hm; [apply IH|apply RC]; apply Hl; exact Hm. }
  inversion F as [tk t src ks m E1 E2|kd op ch os es src m E1 E2 E3 E4|er ch es src m E1 E2 E3|bk ch src s es m E1 E2 E3|a b src m E1|h miss op body eh eb src m E1 E2 E3 E4]; subst; cbn [told node_children] in *.
  - inversion R as [? ? ? P| | | | | |]; subst. rewrite node_token_eq, (kind_read _ _ E1), fbind_some. change (of_option (as_string (EStr t))) with (some t). rewrite fbind_some.
    rewrite (source_meta_read c k src m E2 M (position_known _ _ P)), fbind_some. cbn [only_source md_source]. rewrite (told_position c k src P). reflexivity.
  - destruct (extents_known k ch src E3 RC) as [K Es].
    rewrite node_op_eq, (op_read _ _ _ (families_back kd) E1), expect_if_some, fbind_some, (Q ch es (incl_refl _) E2), expect_if_some, fbind_some, (source_meta_read c k src m E4 M K), expect_if_some, fbind_some.
    cbn [only_source md_source]. rewrite Es. apply (compare_read c k); auto.
  - destruct (extents_known k ch src E2 RC) as [K Es].
    rewrite node_error_eq, error_read, fbind_some, (Q ch es (incl_refl _) E1), fbind_some, (source_meta_read c k src m E3 M K), fbind_some.
    cbn [only_source md_source]. destruct (asserts c) eqn:A; [|reflexivity]. rewrite Es. cbn [rbind]. rewrite (text_told c k src M K (or_intror A)), wsource_eqb_refl. reflexivity.
  - inversion R as [| |? ? ? Rb P _| | | |]; subst.
    rewrite node_box_eq, (box_kind_read _ _ E1 Rb), expect_some, fbind_some, (Q ch es (incl_refl _) E2), expect_some, fbind_some, (source_meta_read c k src m E3 M (position_known _ _ P)), fbind_some.
    cbn [only_source md_source]. rewrite (told_position c k src P). reflexivity.
  - inversion R as [|? ? ? P| | | | |]; subst. rewrite node_code_eq, (source_meta_read c k src m E1 M (position_known _ _ P)), fbind_some. cbn [only_source md_source]. rewrite (told_position c k src P). reflexivity.
  - inversion E2 as [miss' op' ch' os es bsrc bm F1 F2 F3 F4]; subst.
    destruct (extent_known k _ src E3 R) as [K Es]. cbn [told] in Es.
    assert (Rb : Forall (readable k) body) by (apply Forall_app in RC as [_ RC]; exact RC).
    destruct (extents_known k body bsrc F3 Rb) as [Kb Eb].
    rewrite node_call_eq.
    assert (H : head_read c (Some k) eh = some (match h with Concrete l => Concrete (map told l) | Aggregate x => Aggregate (told x) end)).
    { inversion E1 as [l x G|x x' G]; subst.
      - inversion G as [l' es' G']; subst. cbn [head_read fn]. change (String.eqb "System`List" "System`List") with true. cbv iota.
        apply Forall_app in IH as [IH _]. apply Forall_app in RC as [RC _]. rewrite (elements_collect c k l es' G' IH RC). reflexivity.
      - destruct (node_form_head _ _ _ _ G) as (hd & args & -> & Hl & _). cbn [head_read fn]. rewrite Hl. fold (fn hd args).
        apply Forall_app in IH as [IH _]. apply Forall_inv in IH. apply Forall_app in RC as [RC _]. apply Forall_inv in RC. rewrite (IH _ G RC), fbind_some. reflexivity. }
    rewrite H, fbind_some.
    assert (G : group_read c (Some k) miss (ESym os) es bm = some (miss, op, map told body)).
    { unfold group_read. rewrite (op_read _ _ _ call_family_back F1), (Q body es (incl_appr _ (incl_refl _)) F2), !expect_some, (source_meta_read c k bsrc bm F4 M Kb).
      pose proof (fun g n => compare_read c k g bsrc n M Kb) as CR.
      destruct miss; unfold fbind at 1; cbn [some rbind]; unfold fbind at 1; cbn [some rbind]; unfold fbind at 1; cbn [some rbind only_source md_source]; rewrite Eb, CR; reflexivity. }
    rewrite G, expect_some, fbind_some, (source_meta_read c k src m E4 M K), fbind_some. cbn [only_source md_source]. rewrite Es. apply (compare_read c k); auto.
Qed.

(** ** What the kernel makes of it *)

Definition splice (a : expr) : list expr := match is_association a with Some l => l | None => [a] end.
Lemma settled_assoc : forall args, settled (fn "System`Association" args) = fn "System`Association" (flat_map splice (map settled args)).
Proof. reflexivity. Qed.
Lemma settled_fn : forall h args, String.eqb h "System`Association" = false -> settled (fn h args) = fn h (map settled args).
Proof. intros h args H. cbn [settled fn]. rewrite H. reflexivity. Qed.
Lemma settled_rule : forall k v, settled (rule k v) = rule (settled k) (settled v). Proof. reflexivity. Qed.
Lemma settled_list : forall l, settled (fn "System`List" l) = fn "System`List" (map settled l). Proof. reflexivity. Qed.
Lemma map_settled_ints : forall l, map settled (map EInt l) = map EInt l.
Proof. intros l. rewrite map_map. apply map_ext. reflexivity. Qed.
Lemma settled_ints : forall l, settled (ints l) = ints l.
Proof. intros l. unfold ints. rewrite settled_list, map_settled_ints. reflexivity. Qed.
Lemma map_settled_strings : forall l, map settled (map EStr l) = map EStr l.
Proof. intros l. rewrite map_map. apply map_ext. reflexivity. Qed.
Lemma position_settled : forall s p, position_form s p -> settled p = p.
Proof.
  intros s p []; try apply settled_ints.
  - rewrite settled_list. cbn [map]. rewrite !settled_ints. reflexivity.
  - rewrite settled_list, map_app, map_settled_ints. reflexivity.
  - rewrite settled_fn by reflexivity. cbn [map]. rewrite settled_ints. reflexivity.
  - rewrite settled_fn by reflexivity. cbn [map]. rewrite settled_ints. reflexivity.
Qed.
Lemma splice_rule : forall k v, splice (rule k v) = [rule k v]. Proof. reflexivity. Qed.
Lemma rules_settled : forall cm s rs, rule_form cm s rs -> map settled rs = rs.
Proof. intros cm s rs []; [reflexivity|]. cbn [map]. rewrite settled_rule, (position_settled s p) by assumption. reflexivity. Qed.
Lemma rules_spliced : forall cm s rs, rule_form cm s rs -> flat_map splice rs = rs.
Proof. intros cm s rs []; [reflexivity|]. cbn [flat_map]. rewrite splice_rule. reflexivity. Qed.
Lemma source_settled : forall cm s m, source_form cm s m -> settled m = m.
Proof. intros cm s m (rs & F & ->). rewrite settled_assoc, (rules_settled cm s rs F), (rules_spliced cm s rs F). reflexivity. Qed.
Lemma splice_entries : forall l, flat_map splice (map entry l) = map entry l.
Proof. intros l. induction l as [|x l IH]; [reflexivity|]. cbn [map flat_map]. unfold entry at 1. rewrite splice_rule, IH. reflexivity. Qed.
Lemma settled_key : forall f, settled (key_of f) = key_of f. Proof. intros []; reflexivity. Qed.

Lemma node_settled : forall cm ab n e, node_form cm ab n e -> (forall x, carries n x -> settled x = x) -> settled e = e.
Proof.
  intros cm ab n. induction n as [n IH] using node_ind'. intros e F C.
  assert (Q : forall l x, incl l (node_children n) -> (forall m y, In m l -> carries m y -> carries n y) -> seq_form cm ab l x -> settled x = x).
  { intros l x Hl Hc Hx. inversion Hx as [l' es E]; subst. rewrite settled_list. f_equal. clear Hx F. revert es E. induction l as [|m l IHl]; intros es E; inversion E as [|m' e' l' es' E1 E2|m' l' es' E1 E2]; subst; [reflexivity| |].
    - cbn [map]. f_equal.
      + rewrite Forall_forall in IH. apply (IH m); [apply Hl; left; reflexivity|exact E1|]. intros y Hy. apply C. apply (Hc m); [left; reflexivity|exact Hy].
      + apply IHl; auto. intros y Hy. apply Hl. right. exact Hy. intros m2 y H2. apply Hc. right. exact H2.
    - cbn [map]. f_equal. apply IHl; auto. intros y Hy. apply Hl. right. exact Hy. intros m2 y H2. apply Hc. right. exact H2. }
  inversion F as [tk t src ks m E1 E2|kd op ch os es src m E1 E2 E3 E4|er ch es src m E1 E2 E3|bk ch src s es m E1 E2 E3|a b src m E1|h miss op body eh eb src m E1 E2 E3 E4]; subst; cbn [node_children] in *.
  - rewrite settled_fn by (destruct (isError tk); reflexivity). cbn [map settled]. rewrite (source_settled _ _ _ E2). reflexivity.
  - rewrite settled_fn by (destruct kd; reflexivity). cbn [map]. rewrite (source_settled _ _ _ E4), (Q ch es); [reflexivity|apply incl_refl| |exact E2]. intros m0 y H1 H2. eapply ca_op; eauto.
  - rewrite settled_fn by reflexivity. cbn [map]. rewrite (source_settled _ _ _ E3), (Q ch es); [reflexivity|apply incl_refl| |exact E1]. intros m0 y H1 H2. eapply ca_error; eauto.
  - rewrite settled_fn by reflexivity. cbn [map]. rewrite (source_settled _ _ _ E3), (Q ch es); [reflexivity|apply incl_refl| |exact E2]. intros m0 y H1 H2. eapply ca_box; eauto.
  - rewrite settled_fn by reflexivity. cbn [map]. rewrite (source_settled _ _ _ E1), (C a (ca_first _ _ _)), (C b (ca_second _ _ _)). reflexivity.
  - inversion E2 as [miss' op' ch' os es bsrc bm F1 F2 F3 F4]; subst. rewrite settled_fn by reflexivity. cbn [map]. rewrite (source_settled _ _ _ E4).
    rewrite (settled_fn (if miss then _ else _)) by (destruct miss; reflexivity). cbn [map]. rewrite (source_settled _ _ _ F4).
    rewrite (Q body es); [|apply incl_appr, incl_refl|intros m0 y H1 H2; eapply ca_body; eauto|exact F2].
    replace (settled eh) with eh; [reflexivity|]. symmetry. inversion E1 as [l x G|x x' G]; subst.
    + apply (Q l); [apply incl_appl, incl_refl|intros m0 y H1 H2; eapply ca_concrete; eauto|exact G].
    + apply Forall_app in IH as [IH _]. apply Forall_inv in IH. apply (IH _ G). intros y Hy. apply C. constructor. exact Hy.
Qed.

(** ** Issues *)

Lemma collect_strings : forall l, collectf (fun x => of_option (as_string x)) (map EStr l) = some l.
Proof. intros l. induction l as [|s l IH]; [reflexivity|]. cbn [map collectf as_string]. unfold of_option at 1. cbn [fbind rbind]. fold (@collectf expr (list Z) (fun x => of_option (as_string x))). rewrite IH. reflexivity. Qed.
Lemma strings_read : forall l, strings_of (fn "System`List" (map EStr l)) = some l.
Proof. intros l. unfold strings_of. change (normal_with_head "System`List" (fn "System`List" (map EStr l))) with (some (map EStr l)). rewrite fbind_some. apply collect_strings. Qed.
Lemma collect_forall2 : forall A (P : A -> expr -> Prop) (f : expr -> fres A) (Q : A -> Prop) l es, Forall2 P l es -> Forall Q l -> (forall a e, P a e -> Q a -> f (settled e) = some a) -> collectf f (map settled es) = some l.
Proof.
  intros A P f Q l es F. induction F as [|a e l es H F IH]; intros G K; [reflexivity|]. apply Forall_cons_iff in G as [G1 G]. cbn [map collectf]. rewrite (K _ _ H G1). cbn [fbind rbind some]. fold (@collectf expr A f). rewrite (IH G K). reflexivity.
Qed.

Lemma action_read : forall c k a e, readable_mode c k -> action_form (compat c) a e -> action_readable k a -> action_with (meta_of c (Some k)) (settled e) = some a.
Proof.
  intros c k a e M F [NB T]. inversion F as [a' m S]; subst. destruct S as (rs & S & ->).
  assert (K : source_known k (SSpan (ac_src a))) by (split; [intros D; contradiction|intros _; exact T]).
  pose proof (rules_settled _ _ _ S) as RS. pose proof (rules_spliced _ _ _ S) as RP. destruct (rule_entry c k _ rs S M K) as (o & -> & E). cbn [source_told] in E.
  rewrite settled_fn by reflexivity. cbn [map]. rewrite settled_assoc. cbn [map flat_map]. rewrite settled_assoc, RS, RP. change (splice (fn "System`Association" (map entry (seg FSource o)))) with (map entry (seg FSource o)).
  assert (X : exists ts, flat_map splice (map settled (snd (action_text (ac_kind a)))) = map entry ts /\ last_field FSource ts = None /\ last_field FIssues ts = None /\ last_field FConf ts = None /\ last_field FActions ts = None /\ last_field FDescs ts = None /\
    match ac_kind a with ReplaceText t => ts = [(FReplacement, EStr t)] | InsertText t => ts = [(FInsertion, EStr t)] | DeleteText => ts = [] end).
  { destruct (ac_kind a) as [t|t|]; [exists [(FReplacement, EStr t)]|exists [(FInsertion, EStr t)]|exists []]; repeat split; reflexivity. }
  destruct X as (ts & -> & T1 & T2 & T3 & T4 & T5 & T6). rewrite <- map_app.
  assert (MR : exists x, meta_of c (Some k) (fn "System`Association" (map entry (seg FSource o ++ ts))) = some x /\ md_source x = SSpan (ac_src a)).
  { rewrite meta_entries. cbv zeta beta. rewrite !last_field_app, T1, T2, T3, T4, T5, !last_seg. cbn [field_eqb]. rewrite E. cbn [fbind rbind some optional]. eexists. split; reflexivity. }
  destruct MR as (x & Mx & Sx). destruct a as [label kd src]. cbn [ac_label ac_kind ac_src] in *.
  set (A := fn "System`Association" (map entry (seg FSource o ++ ts))) in *.
  assert (RA : rules_of (fun r => r) A = some (map (fun x => (key_of (fst x), snd x)) (seg FSource o ++ ts))) by apply (rules_entries expr (fun r => r)).
  assert (LK : forall key, is_str key (key_of FSource) = false -> lookup key (map (fun x => (key_of (fst x), snd x)) (seg FSource o ++ ts)) = lookup key (map (fun x => (key_of (fst x), snd x)) ts)).
  { intros key H. destruct o; cbn [seg app map lookup fst snd]; [rewrite H|]; reflexivity. }
  destruct kd as [t|t|]; subst ts; cbn [action_text fst].
  - change (action_with (meta_of c (Some k)) (fn "CodeParser`CodeAction" [settled (EStr label); settled (ESym "CodeParser`ReplaceText"); A])) with
      (rules <- expect (rules_of (fun r => r) A) ;; kd <- (t <- expect (t <- of_option (lookup "ReplacementText" rules) ;; of_option (as_string t)) ;; some (ReplaceText t)) ;; m <- expect (meta_of c (Some k) A) ;;
       match md_source m with SSpan sp => some (mk_action label kd sp) | _ => Panic end).
    rewrite RA, Mx, !expect_some, !fbind_some, LK by reflexivity. cbn [map lookup fst snd]. change (is_str "ReplacementText" (key_of FReplacement)) with true. cbv iota.
    change (of_option (Some (EStr t))) with (some (EStr t)). rewrite !fbind_some. change (of_option (as_string (EStr t))) with (some t). rewrite !expect_some, !fbind_some, Sx. reflexivity.
  - change (action_with (meta_of c (Some k)) (fn "CodeParser`CodeAction" [settled (EStr label); settled (ESym "CodeParser`InsertText"); A])) with
      (rules <- expect (rules_of (fun r => r) A) ;; kd <- (t <- expect (t <- of_option (lookup "InsertionText" rules) ;; of_option (as_string t)) ;; some (InsertText t)) ;; m <- expect (meta_of c (Some k) A) ;;
       match md_source m with SSpan sp => some (mk_action label kd sp) | _ => Panic end).
    rewrite RA, Mx, !expect_some, !fbind_some, LK by reflexivity. cbn [map lookup fst snd]. change (is_str "InsertionText" (key_of FInsertion)) with true. cbv iota.
    change (of_option (Some (EStr t))) with (some (EStr t)). rewrite !fbind_some. change (of_option (as_string (EStr t))) with (some t). rewrite !expect_some, !fbind_some, Sx. reflexivity.
  - change (action_with (meta_of c (Some k)) (fn "CodeParser`CodeAction" [settled (EStr label); settled (ESym "CodeParser`DeleteText"); A])) with
      (rules <- expect (rules_of (fun r => r) A) ;; m <- expect (meta_of c (Some k) A) ;;
       match md_source m with SSpan sp => some (mk_action label DeleteText sp) | _ => Panic end).
    rewrite RA, Mx, !expect_some, !fbind_some, Sx. reflexivity.
Qed.

Lemma opt_id : forall A (o : option A), match o with Some w => Some w | None => None end = o. Proof. intros A []; reflexivity. Qed.
Definition if_some (b : bool) (e : expr) : option expr := if b then Some e else None.
Definition filled {A} (l : list A) : bool := match l with [] => false | _ => true end.
Lemma unless_seg : forall A (l : list A) f v, flat_map splice (map settled (unless_empty l (rule (key_of f) v))) = map entry (seg f (if_some (filled l) (settled v))).
Proof. intros A l f v. destruct l; [reflexivity|]. cbn [unless_empty map flat_map filled if_some seg]. rewrite settled_rule, settled_key, splice_rule. reflexivity. Qed.
Lemma given_seg : forall A (o : option A) f (v : A -> expr), flat_map splice (map settled (given o (fun a => rule (key_of f) (v a)))) = map entry (seg f (match o with Some a => Some (settled (v a)) | None => None end)).
Proof. intros A o f v. destruct o; [|reflexivity]. cbn [given map flat_map seg]. rewrite settled_rule, settled_key, splice_rule. reflexivity. Qed.

Lemma tag_read : forall t, tag_from_str (string_of_bytes (bytes_of_string (tag_as_str t))) = Some t.
Proof. intros t. rewrite string_of_bytes_of_string. destruct t; vm_compute; reflexivity. Qed.
Lemma severity_read : forall t, severity_from_str (string_of_bytes (bytes_of_string (severity_as_str t))) = Some t.
Proof. intros t. rewrite string_of_bytes_of_string. destruct t; vm_compute; reflexivity. Qed.

Lemma issue_read : forall c k i e, readable_mode c k -> issue_form (compat c) i e -> issue_readable k i -> issue_with (meta_of c (Some k)) (settled e) = some i.
Proof.
  intros c k i e M F (MK & P & RA & RM). inversion F as [i' m acts more S FA FM]; subst. destruct S as (rs & S & ->).
  pose proof (rules_settled _ _ _ S) as RS. pose proof (rules_spliced _ _ _ S) as RP. destruct (rule_entry c k _ rs S M (position_known _ _ P)) as (o & -> & E). rewrite (told_position c k _ P) in E.
  destruct i as [make tag msg sev src val actions descs mo]. cbn [wi_make wi_tag wi_msg wi_sev wi_src wi_val wi_actions wi_descs wi_more] in *. subst mo. inversion FM; subst.
  assert (HM : String.eqb make "System`Association" = false) by (destruct MK as [<-|[<-|[<-|[]]]]; reflexivity).
  rewrite settled_fn by exact HM. cbn [map unless_empty]. rewrite settled_assoc. cbn [map app flat_map]. rewrite settled_assoc, RS, RP. rewrite app_nil_r, !map_app, !flat_map_app.
  change (splice (fn "System`Association" (map entry (seg FSource o)))) with (map entry (seg FSource o)).
  change (rule (ESym "CodeParser`CodeActions") (fn "System`List" acts)) with (rule (key_of FActions) (fn "System`List" acts)).
  change (rule (str "AdditionalDescriptions") (fn "System`List" (map EStr descs))) with (rule (key_of FDescs) (fn "System`List" (map EStr descs))).
  rewrite !unless_seg, !settled_list, map_settled_strings.
  change (splice (settled (rule (ESym "System`ConfidenceLevel") (EReal val)))) with (map entry (seg FConf (Some (EReal val)))). rewrite <- !map_app.
  set (A := fn "System`Association" _).
  assert (MR : meta_of c (Some k) A = some (mk_wmeta src None (Some (NumR val)) (if filled actions then Some actions else None) (if filled descs then Some descs else None) None None None None None)).
  { unfold A. rewrite meta_entries. cbv zeta beta. rewrite !last_field_app, !last_seg. cbn [field_eqb]. rewrite ?opt_id.
    assert (X : optional (if_some (filled actions) (fn "System`List" (map settled acts))) (actions_read c (Some k)) = some (if filled actions then Some actions else None)).
    { destruct actions; [reflexivity|]. cbn [filled if_some optional].
      change (actions_read c (Some k) (fn "System`List" (map settled acts))) with (collectf (action_with (meta_of c (Some k))) (map settled acts)).
      rewrite (collect_forall2 _ _ _ (action_readable k) _ _ FA RA); [reflexivity|]. intros. apply action_read; assumption. }
    assert (Y : optional (if_some (filled descs) (fn "System`List" (map EStr descs))) strings_of = some (if filled descs then Some descs else None)).
    { destruct descs; [reflexivity|]. cbn [filled if_some optional]. rewrite strings_read. reflexivity. }
    rewrite E, !fbind_some. cbn [optional]. rewrite !fbind_some. change (of_option (number_of (EReal val))) with (some (NumR val)). rewrite expect_some, !fbind_some.
    rewrite X, !fbind_some. rewrite Y, !fbind_some. reflexivity. }
  assert (SX : existsb (String.eqb make) ["CodeParser`SyntaxIssue"; "CodeParser`EncodingIssue"; "CodeParser`FormatIssue"] = true) by (destruct MK as [<-|[<-|[<-|[]]]]; reflexivity).
  unfold issue_with, fn, str. rewrite SX. cbn [settled]. rewrite MR, expect_some, fbind_some. cbn [md_issues md_file md_tabs md_newlines md_simple md_complex someness Nat.add Nat.eqb md_conf md_source md_actions md_descs].
  rewrite tag_read, severity_read. destruct actions, descs; reflexivity.
Qed.

(** ** Containers *)

Lemma meta_read : forall c k m e, readable_mode c k -> meta_form (compat c) m e -> meta_readable k m ->
  (forall x, In (Some x) [md_file m; md_tabs m; md_newlines m; md_simple m; md_complex m] -> settled x = x) -> meta_of c (Some k) (settled e) = some m.
Proof.
  intros c k m e M F (P & NC & RI & RA) ST. inversion F as [m' rs issues actions S FI FA]; subst.
  pose proof (rules_settled _ _ _ S) as RS. pose proof (rules_spliced _ _ _ S) as RP. destruct (rule_entry c k _ rs S M (position_known _ _ P)) as (o & -> & E). rewrite (told_position c k _ P) in E.
  destruct m as [src iss conf acts descs file tabs newlines simple complex]. cbn [md_source md_issues md_conf md_actions md_descs md_file md_tabs md_newlines md_simple md_complex] in *. subst conf.
  rewrite settled_assoc. cbn [given]. rewrite !map_app, !flat_map_app, RS, RP. cbn [app flat_map map].
  change (given iss (fun _ => rule (ESym "CodeParser`SyntaxIssues") (fn "System`List" issues))) with (given iss (fun _ => rule (key_of FIssues) (fn "System`List" issues))).
  change (given acts (fun _ => rule (ESym "CodeParser`CodeActions") (fn "System`List" actions))) with (given acts (fun _ => rule (key_of FActions) (fn "System`List" actions))).
  change (given descs (fun l => rule (str "AdditionalDescriptions") (fn "System`List" (map EStr l)))) with (given descs (fun l => rule (key_of FDescs) (fn "System`List" (map EStr l)))).
  change (given file (rule (str "FileName"))) with (given file (fun x => rule (key_of FFile) x)).
  change (given tabs (rule (str "EmbeddedTabs"))) with (given tabs (fun x => rule (key_of FTabs) x)).
  change (given newlines (rule (str "EmbeddedNewlines"))) with (given newlines (fun x => rule (key_of FNewlines) x)).
  change (given simple (rule (str "SimpleLineContinuations"))) with (given simple (fun x => rule (key_of FSimple) x)).
  change (given complex (rule (str "ComplexLineContinuations"))) with (given complex (fun x => rule (key_of FComplex) x)).
  rewrite !given_seg, <- !map_app, !settled_list.
  assert (G : forall x, In x [file; tabs; newlines; simple; complex] -> match x with Some a => Some (settled a) | None => None end = x).
  { intros [x|] H; [|reflexivity]. rewrite (ST x H). reflexivity. }
  rewrite !G by (cbn [In]; tauto).
  rewrite meta_entries. cbv zeta beta. rewrite !last_field_app, !last_seg. cbn [field_eqb]. rewrite ?opt_id, E, !fbind_some.
  assert (X : optional (match iss with Some _ => Some (fn "System`List" (map settled issues)) | None => None end) (issues_read c (Some k)) = some iss).
  { destruct iss as [l|]; [|reflexivity]. cbn [optional]. change (issues_read c (Some k) (fn "System`List" (map settled issues))) with (collectf (issue_with (meta_of c (Some k))) (map settled issues)).
    rewrite (collect_forall2 _ _ _ (issue_readable k) _ _ FI RI); [reflexivity|]. intros. apply issue_read; assumption. }
  assert (Y : optional (match acts with Some _ => Some (fn "System`List" (map settled actions)) | None => None end) (actions_read c (Some k)) = some acts).
  { destruct acts as [l|]; [|reflexivity]. cbn [optional]. change (actions_read c (Some k) (fn "System`List" (map settled actions))) with (collectf (action_with (meta_of c (Some k))) (map settled actions)).
    rewrite (collect_forall2 _ _ _ (action_readable k) _ _ FA RA); [reflexivity|]. intros. apply action_read; assumption. }
  assert (Z : optional (match descs with Some l => Some (settled (fn "System`List" (map EStr l))) | None => None end) strings_of = some descs).
  { destruct descs as [l|]; [|reflexivity]. rewrite settled_list, map_settled_strings. cbn [optional]. rewrite strings_read. reflexivity. }
  rewrite X, !fbind_some. cbn [optional]. rewrite !fbind_some, Y, !fbind_some, Z, !fbind_some. reflexivity.
Qed.

Lemma seq_settled : forall cm ab l x, seq_form cm ab l x -> (forall n y, In n l -> carries n y -> settled y = y) -> settled x = x.
Proof.
  intros cm ab l x F C. inversion F as [l' es E]; subst. rewrite settled_list. f_equal. clear F. revert es E. induction l as [|m l IH]; intros es E; inversion E as [|m' e' l' es' E1 E2|m' l' es' E1 E2]; subst; [reflexivity| |]; cbn [map]; f_equal.
  - apply (node_settled _ _ _ _ E1). intros y. apply C. left. reflexivity.
  - apply IH; [|exact E2]. intros n y H. apply C. right. exact H.
  - apply IH; [|exact E2]. intros n y H. apply C. right. exact H.
Qed.

Lemma body_read : forall c k l es, readable_mode c k -> seq_form (compat c) false l es -> Forall (readable k) l -> body_of c (Some k) es = some (Nodes (map told l)).
Proof.
  intros c k l x M F R. inversion F as [l' es E]; subst.
  assert (X : body_of c (Some k) (fn "System`List" es) = (l <- normal_with_head "System`List" (fn "System`List" es) ;; l <- collectf (node_of c (Some k)) l ;; some (Nodes l))).
  { destruct E as [|n e l es E1 E2|n l es E1 E2]; [reflexivity| |discriminate E1]. destruct (node_form_head _ _ _ _ E1) as (h & args & -> & _ & _ & H). destruct es; [|reflexivity].
    unfold body_of, fn. rewrite H. rewrite andb_false_r. reflexivity. }
  rewrite X. change (normal_with_head "System`List" (fn "System`List" es)) with (some es). rewrite fbind_some, (elements_collect c k l es E); [reflexivity| |exact R].
  apply Forall_forall. intros n _ e Fn Rn. apply node_read; assumption.
Qed.
Lemma missing_read : forall c k r, body_of c (Some k) (fn "System`List" [missing_form r]) = some (Missing r).
Proof. intros c k r. destruct r as [|[]]; vm_compute; reflexivity. Qed.
Lemma kind_symbol_read : forall k, container_kind_of (ESym (kind_symbol k)) = some k. Proof. intros []; vm_compute; reflexivity. Qed.
Lemma missing_settled : forall r, settled (missing_form r) = missing_form r. Proof. reflexivity. Qed.

Lemma container_read : forall c cell x e, readable_mode c (ct_kind x) -> container_form (compat c) false x e -> container_readable x ->
  (forall y, carried_by x y -> settled y = y) -> container_of c cell (settled e) = (some (container_told x), None).
Proof.
  intros c cell x e M F [RB RM] C.
  assert (CM : forall y, In (Some y) [md_file (ct_meta x); md_tabs (ct_meta x); md_newlines (ct_meta x); md_simple (ct_meta x); md_complex (ct_meta x)] -> settled y = y) by (intros y H; apply C; right; exact H).
  destruct F as [k l es m em F1 F2|k r m em F2]; cbn [ct_kind ct_body ct_meta] in *; rewrite settled_fn by reflexivity; cbn [map].
  - rewrite (seq_settled _ _ _ _ F1) by (intros n y H1 H2; apply C; left; exists l, n; auto). change (settled (ESym (kind_symbol k))) with (ESym (kind_symbol k)).
    unfold container_of, fn. change (String.eqb "CodeParser`ContainerNode" "CodeParser`ContainerNode") with true. cbv iota. rewrite kind_symbol_read. unfold some at 1.
    rewrite (body_read c k l es M F1 RB), expect_some. unfold some at 1. rewrite (meta_read c k m em M F2 RM CM). reflexivity.
  - rewrite settled_list. cbn [map]. rewrite missing_settled. change (settled (ESym (kind_symbol k))) with (ESym (kind_symbol k)).
    unfold container_of, fn. change (String.eqb "CodeParser`ContainerNode" "CodeParser`ContainerNode") with true. cbv iota. rewrite kind_symbol_read. unfold some at 1.
    change (ENormal (ESym "System`List") [missing_form r]) with (fn "System`List" [missing_form r]). rewrite (missing_read c k r), expect_some. unfold some at 1. rewrite (meta_read c k m em M F2 RM CM). reflexivity.
Qed.

(** nothing to be made of a container without issues and actions *)
Lemma meta_settled : forall cm m e, meta_form cm m e -> md_issues m = None -> md_actions m = None ->
  (forall x, In (Some x) [md_file m; md_tabs m; md_newlines m; md_simple m; md_complex m] -> settled x = x) -> settled e = e.
Proof.
  intros cm m e F NI NA ST. inversion F as [m' rs issues actions S FI FA]; subst. pose proof (rules_settled _ _ _ S) as RS. pose proof (rules_spliced _ _ _ S) as RP.
  destruct m as [src iss conf acts descs file tabs newlines simple complex]. cbn [md_source md_issues md_conf md_actions md_descs md_file md_tabs md_newlines md_simple md_complex] in *. subst iss acts.
  rewrite settled_assoc. cbn [given]. rewrite !map_app, !flat_map_app, RS, RP. cbn [map flat_map].
  assert (G : forall o f, In o [file; tabs; newlines; simple; complex] -> flat_map splice (map settled (given o (rule (str f)))) = given o (rule (str f))).
  { intros [y|] f H; [|reflexivity]. cbn [given map flat_map]. rewrite settled_rule, (ST y H). reflexivity. }
  rewrite !G by (cbn [In]; tauto).
  replace (flat_map splice (map settled (given conf number_form))) with (given conf number_form) by (destruct conf as [[]|]; reflexivity).
  replace (flat_map splice (map settled (given descs (fun l => rule (str "AdditionalDescriptions") (fn "System`List" (map EStr l)))))) with (given descs (fun l => rule (str "AdditionalDescriptions") (fn "System`List" (map EStr l)))); [reflexivity|].
  destruct descs as [l|]; [|reflexivity]. cbn [given map flat_map]. rewrite settled_rule, settled_list, map_settled_strings. reflexivity.
Qed.
Lemma container_settled : forall cm ab x e, container_form cm ab x e -> md_issues (ct_meta x) = None -> md_actions (ct_meta x) = None -> (forall y, carried_by x y -> settled y = y) -> settled e = e.
Proof.
  intros cm ab x e F NI NA C.
  assert (CM : forall y, In (Some y) [md_file (ct_meta x); md_tabs (ct_meta x); md_newlines (ct_meta x); md_simple (ct_meta x); md_complex (ct_meta x)] -> settled y = y) by (intros y H; apply C; right; exact H).
  destruct F as [k l es m em F1 F2|k r m em F2]; cbn [ct_kind ct_body ct_meta] in *; rewrite settled_fn by reflexivity; cbn [map]; rewrite (meta_settled _ _ _ F2 NI NA CM).
  - rewrite (seq_settled _ _ _ _ F1) by (intros n y H1 H2; apply C; left; exists l, n; auto). reflexivity.
  - reflexivity.
Qed.
