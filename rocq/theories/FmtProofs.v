(** Proofs for C72: the printed form of trees. *)
From Coq Require Import String.
From Coq Require Import ZArith List Bool Lia.
From Verif Require Import Base Source GenTokenKind GenOps GenSymbols TokenKind TableProofs LongNames Tokenizer Iter Cst SpecCst CstProofs Ast Utils Link ParserTheorems AbstractProofs AbstractShape SpecValue AbstractValue FmtExpr SpecFmt.
Import ListNotations.
Local Open Scope string_scope.
Local Open Scope list_scope.
Local Open Scope Z_scope.

Lemma cat_cons : forall a l x, cat (a :: l) = Ok x -> exists u v, a = Ok u /\ cat l = Ok v /\ x = u ++ v.
Proof. intros a l x E. cbn [cat] in E. destruct a as [u| |]; try discriminate E. cbn [rbind] in E. destruct (cat l) as [v| |]; try discriminate E. injection E as <-. eauto. Qed.
Lemma cat_nil : forall x, cat [] = Ok x -> x = []. Proof. intros x [= <-]. reflexivity. Qed.
Lemma out_Ok : forall s x, out s = Ok x -> x = bytes_of_string s. Proof. intros s x [= <-]. reflexivity. Qed.
Ltac pieces :=
  repeat (first
    [ match goal with H : cat (_ :: _) = Ok ?x |- _ => is_var x; let u := fresh "u" in let v := fresh "v" in let P := fresh "P" in apply cat_cons in H as (u & v & P & H & ->) end
    | match goal with H : cat [] = Ok ?x |- _ => apply cat_nil in H; subst x end
    | match goal with H : out _ = Ok ?x |- _ => apply out_Ok in H; subst x end
    | match goal with H : Ok _ = Ok ?x |- _ => is_var x; injection H as <- end ]).

Ltac bytes := repeat match goal with
  | |- context [bytes_of_string ", "] => change (bytes_of_string ", ") with [44; 32]
  | |- context [bytes_of_string "["] => change (bytes_of_string "[") with [91]
  | |- context [bytes_of_string "]"] => change (bytes_of_string "]") with [93]
  | |- context [bytes_of_string """"] => change (bytes_of_string """") with [34]
  | |- context [bytes_of_string "{"] => change (bytes_of_string "{") with [123]
  | |- context [bytes_of_string "}"] => change (bytes_of_string "}") with [125]
  end; rewrite <- ?app_assoc; cbn [app].

(** ** Where a piece ends *)
Lemma ends_at : forall (stop : Z -> bool) a a' c c' r r', Forall (fun x => stop x = false) a -> Forall (fun x => stop x = false) a' -> stop c = true -> stop c' = true ->
  a ++ c :: r = a' ++ c' :: r' -> a = a' /\ c = c' /\ r = r'.
Proof.
  intros stop a. induction a as [|x a IH]; intros [|y a'] c c' r r' F F' S S' E; cbn [app] in E; injection E as E1 E2; subst.
  - auto.
  - inversion F'; congruence.
  - inversion F; congruence.
  - inversion F; inversion F'; subst. destruct (IH _ _ _ _ _ ltac:(eassumption) ltac:(eassumption) S S' E2) as (-> & -> & ->). auto.
Qed.

Lemma ascii_byte : forall a b, Z.of_nat (Ascii.nat_of_ascii a) = Z.of_nat (Ascii.nat_of_ascii b) -> a = b.
Proof. intros a b H. apply Nat2Z.inj in H. rewrite <- (Ascii.ascii_nat_embedding a), <- (Ascii.ascii_nat_embedding b), H. reflexivity. Qed.
Lemma bytes_inj : forall s s', bytes_of_string s = bytes_of_string s' -> s = s'.
Proof.
  induction s as [|a s IH]; intros [|b s'] E; cbn [bytes_of_string] in E; try discriminate E; [reflexivity|]. injection E as E1 E2. apply ascii_byte in E1. rewrite E1, (IH _ E2). reflexivity.
Qed.

(** symbols hold neither commas nor brackets *)
Definition marks (x : Z) : bool := (x =? 44) || (x =? 91).
Definition simple (s : string) : bool := forallb (fun x => negb (marks x)) (bytes_of_string s).
Lemma simple_free : forall s, simple s = true -> Forall (fun x => marks x = false) (bytes_of_string s).
Proof. intros s H. apply Forall_forall. intros x Hx. pose proof (proj1 (forallb_forall _ _) H _ Hx) as B. cbv beta in B. destruct (marks x); [discriminate B|reflexivity]. Qed.
Lemma assoc_In : forall A k (l : list (Z * A)) v, assoc k l = Some v -> In (k, v) l.
Proof. intros A k l v. induction l as [|[k' v'] l IH]; cbn [assoc]; intros E; [discriminate E|]. destruct (Z.eqb_spec k k') as [->|]; [injection E as <-; left; reflexivity|right; auto]. Qed.
Lemma kind_symbols : forallb (fun p => if simple (snd p) then match tk_from_symbol (snd p) with Some k => k =? shown_kind (fst p) | None => false end else false) KIND_SYMBOL = true.
Proof. vm_compute. reflexivity. Qed.
Lemma kind_symbol : forall k s, tk_to_symbol k = Some s -> simple s = true /\ tk_from_symbol s = Some (shown_kind k).
Proof.
  intros k s E. apply assoc_In in E. pose proof (proj1 (forallb_forall _ _) kind_symbols _ E) as B. cbv beta in B. cbn [fst snd] in B. destruct (simple s); [|discriminate B]. split; [reflexivity|].
  destruct (tk_from_symbol s) as [k'|]; [|discriminate B]. apply Z.eqb_eq in B. rewrite B. reflexivity.
Qed.
Lemma op_symbols : forallb (fun f => forallb (fun p => if simple (snd p) then match op_from_symbol f (snd p) with Some k => k =? fst p | None => false end else false) (f_to f)) FAMILIES = true.
Proof. vm_compute. reflexivity. Qed.
Lemma op_symbol : forall f op s, In f FAMILIES -> op_to_symbol f op = Some s -> simple s = true /\ op_from_symbol f s = Some op.
Proof.
  intros f op s Hf E. apply assoc_In in E. pose proof (proj1 (forallb_forall _ _) op_symbols _ Hf) as B. cbv beta in B. pose proof (proj1 (forallb_forall _ _) B _ E) as D. cbv beta in D. cbn [fst snd] in D.
  destruct (simple s); [|discriminate D]. split; [reflexivity|]. destruct (op_from_symbol f s) as [k'|]; [|discriminate D]. apply Z.eqb_eq in D. rewrite D. reflexivity.
Qed.
Lemma family_in : forall k, In (family_of k) FAMILIES.
Proof. intros k. unfold FAMILIES. destruct k; cbn [family_of In]; auto 12. Qed.
Lemma call_family_in : In call_family FAMILIES.
Proof. unfold FAMILIES, call_family. cbn [In]. auto 12. Qed.

(** ** Numbers and places *)
Lemma number_free : forall n, 0 <= n -> Forall (fun x => 48 <= x <= 57) (int_text n).
Proof. intros n H. exact (proj2 (proj1 (int_text_digits n H))). Qed.
Lemma int_text_inj : forall n n', 0 <= n -> 0 <= n' -> int_text n = int_text n' -> n = n'.
Proof. intros n n' H H' E. rewrite <- (proj2 (int_text_digits n H)), <- (proj2 (int_text_digits n' H')), E. reflexivity. Qed.
Definition nodigit (x : Z) : bool := negb ((48 <=? x) && (x <=? 57)).
Lemma number_ends : forall n n' c c' r r', 0 <= n -> 0 <= n' -> nodigit c = true -> nodigit c' = true -> int_text n ++ c :: r = int_text n' ++ c' :: r' -> n = n' /\ c = c' /\ r = r'.
Proof.
  intros n n' c c' r r' H H' S S' E.
  assert (F : forall m, 0 <= m -> Forall (fun x => nodigit x = false) (int_text m)).
  { intros m Hm. eapply Forall_impl; [|apply number_free; exact Hm]. intros x Hx. unfold nodigit. cbv beta in Hx. destruct (Z.leb_spec 48 x), (Z.leb_spec x 57); first [reflexivity|lia]. }
  destruct (ends_at nodigit _ _ _ _ _ _ (F n H) (F n' H') S S' E) as (E1 & E2 & E3). split; [exact (int_text_inj _ _ H H' E1)|auto].
Qed.
Lemma source_ends : forall s s' x x' r r', counted (sp_start s) -> counted (sp_end s) -> counted (sp_start s') -> counted (sp_end s') ->
  fmt_source s = Ok x -> fmt_source s' = Ok x' -> x ++ r = x' ++ r' -> s = s' /\ r = r'.
Proof.
  intros [[a b|a] [c d|c]] [[a' b'|a'] [c' d'|c']] x x' r r' H1 H2 H3 H4 E E'; try discriminate E; try discriminate E'. cbn [counted sp_start sp_end] in *.
  unfold fmt_source, kind_of_span in E, E'. cbn [sp_start sp_end rbind fmt_location] in E, E'. pieces.
  bytes.
  intros X. injection X as X.
  apply number_ends in X as (-> & _ & X); try lia; try reflexivity. injection X as X.
  apply number_ends in X as (-> & _ & X); try lia; try reflexivity. injection X as X.
  apply number_ends in X as (-> & _ & X); try lia; try reflexivity. injection X as X.
  apply number_ends in X as (-> & _ & X); try lia; try reflexivity. injection X as X.
  auto.
Qed.

(** ** The parts of a node *)
Lemma name_ends : forall s s' c c' r r', simple s = true -> simple s' = true -> marks c = true -> marks c' = true ->
  bytes_of_string s ++ c :: r = bytes_of_string s' ++ c' :: r' -> s = s' /\ r = r'.
Proof.
  intros s s' c c' r r' H H' M M' E. destruct (ends_at marks _ _ _ _ _ _ (simple_free s H) (simple_free s' H') M M' E) as (E1 & _ & E3). split; [exact (bytes_inj _ _ E1)|exact E3].
Qed.
Lemma text_ends : forall a a' r r', ~ In 34 a -> ~ In 34 a' -> a ++ 34 :: r = a' ++ 34 :: r' -> a = a' /\ r = r'.
Proof.
  intros a a' r r' H H' E. assert (F : forall a, ~ In 34 a -> Forall (fun x => (x =? 34) = false) a).
  { intros b Hb. apply Forall_forall. intros x Hx. apply Z.eqb_neq. intros ->. auto. }
  destruct (ends_at (fun x => x =? 34) a a' 34 34 r r' (F _ H) (F _ H') eq_refl eq_refl E) as (E1 & _ & E3). auto.
Qed.
Lemma out_symbol_Ok : forall s x, out_symbol s = Ok x -> exists n, s = Some n /\ x = bytes_of_string n.
Proof. intros [n|] x E; [|discriminate E]. injection E as <-. eauto. Qed.
Definition leaf_head (k : Z) : string := if isError k then "CodeParser`ErrorNode" else "CodeParser`LeafNode".
Lemma leaf_head_simple : forall k, simple (leaf_head k) = true.
Proof. intros k. unfold leaf_head. destruct (isError k); reflexivity. Qed.

(** the head of the printed form *)
Definition printed_head (n : cst) : string :=
  match n with
  | Tok t => leaf_head (t_kind t)
  | Call _ _ _ _ => "CodeParser`CallNode"
  | SynErr _ _ => "CodeParser`SyntaxErrorNode"
  | Op k _ _ => op_head k
  | _ => ""
  end.
Lemma head_simple : forall n, simple (printed_head n) = true.
Proof. intros [t|h m op body|e ch|k op ch|b ch src|a b src]; try reflexivity; [apply leaf_head_simple|destruct k; reflexivity]. Qed.
Lemma begins : forall n x, fmt_node n = Ok x -> exists r, x = bytes_of_string (printed_head n) ++ 91 :: r.
Proof.
  intros [t|h m op body|e ch|k op ch|b ch src|a b src] x E; try discriminate E; cbn [fmt_node] in E; unfold fmt_token, fmt_op in E;
    apply cat_cons in E as (u & v & P & E & ->); apply cat_cons in E as (u' & v' & P' & _ & ->); apply out_Ok in P; apply out_Ok in P'; subst; cbn [printed_head]; eexists; reflexivity.
Qed.
Lemma heads_agree : forall n n' x x' r r', fmt_node n = Ok x -> fmt_node n' = Ok x' -> x ++ r = x' ++ r' -> printed_head n = printed_head n'.
Proof.
  intros n n' x x' r r' E E' X. destruct (begins n x E) as (y & ->). destruct (begins n' x' E') as (y' & ->). rewrite <- !app_assoc in X. cbn [app] in X.
  exact (proj1 (name_ends _ _ 91 91 _ _ (head_simple n) (head_simple n') eq_refl eq_refl X)).
Qed.
Lemma starts_C : forall n x, fmt_node n = Ok x -> exists r, x = 67 :: r.
Proof.
  intros n x E. destruct (begins n x E) as (r & ->). destruct n as [t|h m op body|e ch|k op ch|b ch src|a b src]; try discriminate E; cbn [printed_head]; try (eexists; reflexivity).
  - unfold leaf_head. destruct (isError _); eexists; reflexivity.
  - destruct k; eexists; reflexivity.
Qed.

Lemma token_ends : forall t t' x x' r r', unquoted t -> unquoted t' -> counted_token t -> counted_token t' -> fmt_token t = Ok x -> fmt_token t' = Ok x' -> x ++ r = x' ++ r' ->
  shown_token t = shown_token t' /\ r = r'.
Proof.
  intros t t' x x' r r' U U' [H1 H2] [H3 H4] E E'. unfold fmt_token in E, E'.
  fold (leaf_head (t_kind t)) in E. fold (leaf_head (t_kind t')) in E'. 
  pieces.
  destruct (utf8_valid (t_text t)); [|discriminate]. destruct (utf8_valid (t_text t')); [|discriminate].
  pieces.
  repeat match goal with Q : out_symbol _ = Ok _ |- _ => let n := fresh "s" in apply out_symbol_Ok in Q as (n & Q & ->) end.
  bytes. intros X. apply name_ends in X as (_ & X); try reflexivity; try apply leaf_head_simple.
  repeat match goal with Q : tk_to_symbol _ = Some _ |- _ => apply kind_symbol in Q as [? Q] end.
  apply name_ends in X as (Es & X); try reflexivity; try assumption. injection X as X. apply text_ends in X as (Et & X); try assumption. injection X as X.
  eapply source_ends in X as (Ep & X); [..|eassumption|eassumption]; try assumption. injection X as ->. split; [|reflexivity].
  subst. unfold shown_token. rewrite Et, Ep. f_equal. congruence.
Qed.

(** ** Trees *)
Lemma source_shown : forall n, get_source (shown n) = get_source n.
Proof.
  apply cst_ind'. intros n IH. assert (Q : forall l, Forall (fun n => get_source (shown n) = get_source n) l -> map get_source (map shown l) = map get_source l).
  { intros l F. rewrite map_map. apply map_ext_in. rewrite Forall_forall in F. exact F. }
  destruct n as [t|[l|x] m op body|e ch|k op ch|b ch src|a b src]; cbn [children] in IH; cbn [shown get_source]; try reflexivity; try (rewrite (Q _ IH); reflexivity).
  - apply Forall_app in IH as [I1 I2]. rewrite (Q _ I1), (Q _ I2). reflexivity.
  - apply Forall_cons_iff in IH as [I1 I2]. rewrite I1, (Q _ I2). reflexivity.
Qed.
Lemma sources_shown : forall l l', map shown l = map shown l' -> map get_source l = map get_source l'.
Proof.
  intros l l' E. assert (Q : forall l, map get_source (map shown l) = map get_source l) by (intros k; rewrite map_map; apply map_ext; exact source_shown). rewrite <- (Q l), <- (Q l'), E. reflexivity.
Qed.

Definition tidy (n : cst) : Prop := Forall (fun t => unquoted t /\ counted_token t) (toks n).
Definition unique (n : cst) : Prop := forall n' x x' r r', tidy n -> tidy n' -> fmt_node n = Ok x -> fmt_node n' = Ok x' -> x ++ r = x' ++ r' -> shown n = shown n' /\ r = r'.

Lemma items_end : forall l, Forall unique l -> forall l' x x' r r', Forall tidy l -> Forall tidy l' ->
  cat (map (fun a => cat [a; out ", "]) (map fmt_node l)) = Ok x -> cat (map (fun a => cat [a; out ", "]) (map fmt_node l')) = Ok x' ->
  x ++ 93 :: r = x' ++ 93 :: r' -> map shown l = map shown l' /\ r = r'.
Proof.
  assert (Q : forall n l x r y, cat (map (fun a => cat [a; out ", "]) (map fmt_node (n :: l))) = Ok x -> 93 :: r = x ++ y -> False).
  { intros n l x r y E X. cbn [map] in E. apply cat_cons in E as (u & v & P & _ & ->). apply cat_cons in P as (w & z & P & _ & ->). destruct (starts_C _ _ P) as (q & ->). discriminate X. }
  intros l U. induction U as [|n l Un U IH]; intros [|n' l'] x x' r r' T T' E E' X.
  - injection E as <-. injection E' as <-. injection X as ->. auto.
  - injection E as <-. exfalso. exact (Q _ _ _ _ _ E' X).
  - injection E' as <-. exfalso. exact (Q _ _ _ _ _ E (eq_sym X)).
  - cbn [map] in E, E'. apply cat_cons in E as (u & v & P & E & ->). apply cat_cons in E' as (u' & v' & P' & E' & ->).
    apply cat_cons in P as (w & z & P & Pz & ->). apply cat_cons in P' as (w' & z' & P' & Pz' & ->). rewrite Pz in Pz'. injection Pz' as <-.
    rewrite <- !app_assoc in X. inversion T; inversion T'; subst. destruct (Un n' w w' _ _ ltac:(assumption) ltac:(assumption) P P' X) as [S1 X1].
    apply app_inv_head in X1. destruct (IH l' v v' r r' ltac:(assumption) ltac:(assumption) E E' X1) as [S2 ->]. cbn [map]. rewrite S1, S2. auto.
Qed.
Lemma seq_ends : forall l, Forall unique l -> forall l' x x' r r', Forall tidy l -> Forall tidy l' ->
  fmt_seq (map fmt_node l) = Ok x -> fmt_seq (map fmt_node l') = Ok x' -> x ++ r = x' ++ r' -> map shown l = map shown l' /\ r = r'.
Proof.
  intros l U l' x x' r r' T T' E E'. unfold fmt_seq in E, E'.
  apply cat_cons in E as (a & b & A & E & ->). apply cat_cons in E' as (a' & b' & A' & E' & ->). rewrite A in A'. injection A' as <-.
  apply cat_cons in E as (c & d & C & E & ->). apply cat_cons in E' as (c' & d' & C' & E' & ->). rewrite C in C'. injection C' as <-.
  apply cat_cons in E as (e & f & I & E & ->). apply cat_cons in E' as (e' & f' & I' & E' & ->). rewrite E in E'. injection E' as <-. injection E as <-.
  rewrite <- !app_assoc. intros X. apply app_inv_head in X. apply app_inv_head in X. exact (items_end l U l' _ _ _ _ T T' I I' X).
Qed.
(** a node with operator, children and source *)
Lemma op_ends : forall head s s' ch ch' src src' x x' r r', simple head = true -> Forall unique ch -> Forall tidy ch -> Forall tidy ch' ->
  (forall n, s = Some n -> simple n = true) -> (forall n, s' = Some n -> simple n = true) ->
  (map shown ch = map shown ch' -> src = src') ->
  fmt_op head s (fmt_seq (map fmt_node ch)) src = Ok x -> fmt_op head s' (fmt_seq (map fmt_node ch')) src' = Ok x' -> x ++ r = x' ++ r' ->
  (exists n, s = Some n /\ s' = Some n) /\ map shown ch = map shown ch' /\ r = r'.
Proof.
  intros head s s' ch ch' src src' x x' r r' Hh U T T' N N' Hs E E'. unfold fmt_op in E, E'.
  apply cat_cons in E as (a & b & A & E & ->). apply cat_cons in E' as (a' & b' & A' & E' & ->). rewrite A in A'. injection A' as <-.
  apply cat_cons in E as (c & d & C & E & ->). apply cat_cons in E' as (c' & d' & C' & E' & ->). rewrite C in C'. injection C' as <-.
  apply cat_cons in E as (e & f & S & E & ->). apply cat_cons in E' as (e' & f' & S' & E' & ->). apply out_symbol_Ok in S as (n & -> & ->). apply out_symbol_Ok in S' as (n' & -> & ->).
  apply cat_cons in E as (g & h & G & E & ->). apply cat_cons in E' as (g' & h' & G' & E' & ->). apply out_Ok in G. apply out_Ok in G'. subst g g'.
  apply cat_cons in E as (i & j & I & E & ->). apply cat_cons in E' as (i' & j' & I' & E' & ->).
  rewrite <- !app_assoc. intros X. apply app_inv_head in X. apply app_inv_head in X. change (bytes_of_string ", ") with [44; 32] in X. cbn [app] in X.
  apply name_ends in X as (-> & X); try reflexivity; auto. injection X as X. destruct (seq_ends ch U ch' _ _ _ _ T T' I I' X) as [Sh X2].
  rewrite (Hs Sh) in E. rewrite E in E'. injection E' as <-. apply app_inv_head in X2. split; [eauto|]. auto.
Qed.

Lemma tidy_child : forall n m, tidy n -> In m (children n) -> tidy m.
Proof.
  intros n m T H. destruct (nodes_toks n m (child_nodes _ _ H)) as (x & y & E). unfold tidy in *. rewrite E in T. apply Forall_app in T as [_ T]. apply Forall_app in T as [T _]. exact T.
Qed.
Lemma tidy_children : forall n l, tidy n -> incl l (children n) -> Forall tidy l.
Proof. intros n l T H. apply Forall_forall. intros m Hm. exact (tidy_child n m T (H m Hm)). Qed.

Lemma op_same : forall f op op' n, In f FAMILIES -> op_to_symbol f op = Some n -> op_to_symbol f op' = Some n -> op = op'.
Proof. intros f op op' n Hf E E'. apply op_symbol in E as [_ E]; [|exact Hf]. apply op_symbol in E' as [_ E']; [|exact Hf]. congruence. Qed.
Lemma op_simple : forall f op, In f FAMILIES -> forall n, op_to_symbol f op = Some n -> simple n = true.
Proof. intros f op Hf n E. exact (proj1 (op_symbol f op n Hf E)). Qed.
Lemma error_simple : forall e n, Some (syntax_error_symbol e) = Some n -> simple n = true.
Proof. intros e n [= <-]. destruct e; reflexivity. Qed.

Lemma trees_unique : forall n, unique n.
Proof.
  apply cst_ind'. intros n IH n' x x' r r' T T' E E' X. pose proof (heads_agree n n' x x' r r' E E' X) as Hd.
  destruct n as [t|h m op body|e ch|k op ch|b ch src|a b src]; try discriminate E;
  destruct n' as [t'|h' m' op' body'|e' ch'|k' op' ch'|b' ch' src'|a' b' src']; try discriminate E'; cbn [printed_head] in Hd; unfold leaf_head in Hd;
    try (exfalso; repeat match type of Hd with context [isError ?z] => destruct (isError z) end; try destruct k; try destruct k'; discriminate Hd).
  - unfold tidy in T, T'. cbn [toks flat_map app] in T, T'. inversion T as [|? ? [U C] _]; inversion T' as [|? ? [U' C'] _]; subst.
    destruct (token_ends t t' x x' r r' U U' C C' E E' X) as [S ->]. cbn [shown]. rewrite S. auto.
  - cbn [fmt_node] in E, E'.
    apply cat_cons in E as (a & b & A & E & ->). apply cat_cons in E' as (a' & b' & A' & E' & ->). rewrite A in A'. injection A' as <-.
    apply cat_cons in E as (c & d & C & E & ->). apply cat_cons in E' as (c' & d' & C' & E' & ->). rewrite C in C'. injection C' as <-.
    apply cat_cons in E as (u & f & Hu & E & ->). apply cat_cons in E' as (u' & f' & Hu' & E' & ->).
    apply cat_cons in E as (g & i & G & E & ->). apply cat_cons in E' as (g' & i' & G' & E' & ->). rewrite G in G'. injection G' as <-.
    apply cat_cons in E as (v & j & Hv & E & ->). apply cat_cons in E' as (v' & j' & Hv' & E' & ->).
    rewrite <- !app_assoc in X. apply app_inv_head in X. apply app_inv_head in X.
    assert (IB : Forall unique body) by (rewrite children_call in IH; apply Forall_app in IH as [_ IH]; exact IH).
    assert (TB : Forall tidy body) by (apply (tidy_children _ _ T); rewrite children_call; apply incl_appr, incl_refl).
    assert (TB' : Forall tidy body') by (apply (tidy_children _ _ T'); rewrite children_call; apply incl_appr, incl_refl).
    assert (Q : map shown (head_nodes h) = map shown (head_nodes h') /\ (forall z, shown (Call h m op z) = shown (Call h' m op z)) /\ g ++ v ++ j ++ r = g ++ v' ++ j' ++ r').
    { rewrite children_call in IH. apply Forall_app in IH as [IH _].
      assert (TH : Forall tidy (head_nodes h)) by (apply (tidy_children _ _ T); rewrite children_call; apply incl_appl, incl_refl).
      assert (TH' : Forall tidy (head_nodes h')) by (apply (tidy_children _ _ T'); rewrite children_call; apply incl_appl, incl_refl).
      destruct h as [l|y], h' as [l'|y']; cbn [head_nodes] in *.
      - destruct (seq_ends l IH l' _ _ _ _ TH TH' Hu Hu' X) as [S ->]. split; [exact S|]. split; [intros z; cbn [shown]; rewrite S; reflexivity|reflexivity].
      - exfalso. destruct (starts_C _ _ Hu') as (q & ->). unfold fmt_seq in Hu. apply cat_cons in Hu as (w & w' & W & _ & ->). apply out_Ok in W. subst w. discriminate X.
      - exfalso. destruct (starts_C _ _ Hu) as (q & ->). unfold fmt_seq in Hu'. apply cat_cons in Hu' as (w & w' & W & _ & ->). apply out_Ok in W. subst w. discriminate X.
      - inversion IH as [|? ? I0 _]; inversion TH as [|? ? T0 _]; inversion TH' as [|? ? T0' _]; subst. destruct (I0 y' _ _ _ _ T0 T0' Hu Hu' X) as [S ->].
        split; [cbn [map]; rewrite S; reflexivity|]. split; [intros z; cbn [shown]; rewrite S; reflexivity|reflexivity]. }
    destruct Q as (Sh & Sc & Y). apply app_inv_head in Y.
    assert (M : m = m').
    { unfold fmt_op in Hv, Hv'. apply cat_cons in Hv as (p & p2 & P1 & Hv & ->). apply cat_cons in Hv' as (p' & p2' & P1' & Hv' & ->). apply out_Ok in P1. apply out_Ok in P1'. subst.
      apply cat_cons in Hv as (p & p3 & P2 & _ & ->). apply cat_cons in Hv' as (p' & p3' & P2' & _ & ->). apply out_Ok in P2. apply out_Ok in P2'. subst.
      rewrite <- !app_assoc in Y. change (bytes_of_string "[") with [91] in Y. cbn [app] in Y.
      apply name_ends in Y as [Y _]; [|destruct m; reflexivity|destruct m'; reflexivity|reflexivity|reflexivity]. destruct m, m'; try reflexivity; discriminate Y. }
    subst m'.
    destruct (op_ends (op_head (if m then KGroupMissingCloser else KGroup)) _ _ body body' (sources_between (map get_source body)) (sources_between (map get_source body')) v v' _ _ ltac:(destruct m; reflexivity) IB TB TB' (op_simple _ op call_family_in) (op_simple _ op' call_family_in)
      ltac:(intros S; rewrite (sources_shown _ _ S); reflexivity) Hv Hv' Y) as ((s & E1 & E2) & S & Z).
    pose proof (op_same _ _ _ _ call_family_in E1 E2). subst op'.
    assert (W : shown (Call h m op body) = shown (Call h' m op body')).
    { rewrite Sc. destruct h'; cbn [shown]; rewrite S; reflexivity. }
    split; [exact W|]. rewrite <- (source_shown (Call h m op body)), W, source_shown in E. rewrite E in E'. injection E' as <-. apply app_inv_head in Z. exact Z.
  - cbn [children] in IH. cbn [fmt_node] in E, E'.
    destruct (op_ends "CodeParser`SyntaxErrorNode" _ _ ch ch' (get_source (SynErr e ch)) (get_source (SynErr e' ch')) x x' r r' eq_refl IH (tidy_children _ _ T (incl_refl _)) (tidy_children _ _ T' (incl_refl _)) (error_simple e) (error_simple e')
      ltac:(intros S; cbn [get_source]; rewrite (sources_shown _ _ S); reflexivity) E E' X) as ((s & E1 & E2) & S & ->). cbn [shown]. rewrite S. split; [|reflexivity].
    f_equal. rewrite <- E2 in E1. destruct e, e'; try reflexivity; discriminate E1.
  - cbn [children] in IH. cbn [fmt_node] in E, E'. assert (k = k') by (destruct k, k'; try reflexivity; discriminate Hd). subst k'.
    destruct (op_ends (op_head k) _ _ ch ch' (get_source (Op k op ch)) (get_source (Op k op' ch')) x x' r r' (head_simple (Op k op ch)) IH (tidy_children _ _ T (incl_refl _)) (tidy_children _ _ T' (incl_refl _)) (op_simple _ op (family_in k)) (op_simple _ op' (family_in k))
      ltac:(intros S; cbn [get_source]; rewrite (sources_shown _ _ S); reflexivity) E E' X) as ((s & E1 & E2) & S & ->). cbn [shown]. rewrite S, (op_same _ _ _ _ (family_in k) E1 E2). auto.
Qed.
