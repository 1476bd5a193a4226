(** Abstraction keeps the meaning of expressions (SpecValue.v). *)
From Coq Require Import String.
From Coq Require Import ZArith List Bool Lia.
From Verif Require Import Base Source LongNames Iter GenTokenKind GenOps GenSymbols TokenKind Tokenizer Cst CstProofs Ast Abstract AbstractProofs AbstractShape SpecValue.
Import ListNotations.
Local Open Scope string_scope.
Local Open Scope list_scope.
Local Open Scope Z_scope.

(** ** Names of operators *)
Definition named_right (table : list (Z * string)) : bool :=
  forallb (fun p => zlist_eqb (symbol_text (snd p)) (bytes (without_context (snd p)))) table.
Lemma tables_right : forallb named_right [IOP_TO; PREOP_TO; POSTOP_TO; BOP_TO; TOP_TO; PBOP_TO; COP_TO; GOP_TO] = true.
Proof. vm_compute. reflexivity. Qed.
Lemma assoc_In : forall A k (l : list (Z * A)) v, assoc k l = Some v -> In (k, v) l.
Proof.
  intros A k l v. induction l as [|[x y] l IH]; cbn [assoc]; [discriminate|]. destruct (Z.eqb_spec k x) as [->|_]; [intros [= ->]; left; reflexivity|]. intros H. right. apply IH. exact H.
Qed.
Lemma operator_text : forall table op, In table [IOP_TO; PREOP_TO; POSTOP_TO; BOP_TO; TOP_TO; PBOP_TO; COP_TO; GOP_TO] ->
  symbol_text (match assoc op table with Some s => s | None => EmptyString end) = bytes (operator table op).
Proof.
  intros table op Ht. pose proof tables_right as R. rewrite forallb_forall in R. specialize (R _ Ht). unfold operator. destruct (assoc op table) as [s|] eqn:A; [|reflexivity].
  apply assoc_In in A. unfold named_right in R. rewrite forallb_forall in R. specialize (R _ A). cbn [snd] in R. apply zlist_eqb_eq in R. exact R.
Qed.
Definition comma_text : list Z := bytes_of_string "CodeParser`Comma".
Definition safe_table (bad : list Z) (table : list (Z * string)) : bool :=
  forallb (fun p => if zin (fst p) bad then true else negb (zlist_eqb (bytes (without_context (snd p))) comma_text)) table.
Lemma tables_safe : forallb (safe_table []) [PREOP_TO; POSTOP_TO; BOP_TO; TOP_TO; PBOP_TO; COP_TO; GOP_TO] = true /\ safe_table [IOP_CodeParser_Comma] IOP_TO = true.
Proof. split; vm_compute; reflexivity. Qed.
Lemma safe_in : forall bad table op, safe_table bad table = true -> ~ In op bad -> bytes (operator table op) <> comma_text.
Proof.
  intros bad table op S N. unfold operator. destruct (assoc op table) as [s|] eqn:A; [|vm_compute; discriminate]. apply assoc_In in A. unfold safe_table in S. rewrite forallb_forall in S. specialize (S _ A). cbn [fst snd] in S.
  destruct (zin op bad) eqn:Z; [apply zin_In in Z; contradiction|]. apply negb_true_iff in S. intros X. rewrite X in S. vm_compute in S. discriminate S.
Qed.
Lemma operator_safe : forall table op, In table [PREOP_TO; POSTOP_TO; BOP_TO; TOP_TO; PBOP_TO; COP_TO; GOP_TO] -> bytes (operator table op) <> comma_text.
Proof. intros table op H. destruct tables_safe as [S _]. rewrite forallb_forall in S. apply (safe_in [] table op); [apply S; exact H|intros []]. Qed.
Lemma infix_safe : forall op, op <> IOP_CodeParser_Comma -> bytes (operator IOP_TO op) <> comma_text.
Proof. intros op N. apply (safe_in [IOP_CodeParser_Comma]); [exact (proj2 tables_safe)|]. intros [X|[]]. auto. Qed.
(** the name by which the quirk knows an operator *)
Definition quirk_names : bool := forallb (fun p => if zin (fst p) [IOP_CodeParser_Comma; IOP_CodeParser_InfixTilde; IOP_CodeParser_InfixInequality; IOP_CodeParser_InternalInvalid] then true else zlist_eqb (symbol_name (snd p)) (bytes (without_context (snd p)))) IOP_TO.
Lemma quirk_names_ok : quirk_names = true.  Proof. vm_compute. reflexivity. Qed.
Lemma quirk_name : forall op, ~ In op [IOP_CodeParser_Comma; IOP_CodeParser_InfixTilde; IOP_CodeParser_InfixInequality; IOP_CodeParser_InternalInvalid] -> symbol_name (op_symbol KInfix op) = bytes (operator IOP_TO op).
Proof.
  intros op N. unfold op_symbol, operator. destruct (assoc op IOP_TO) as [s|] eqn:A; [|reflexivity]. apply assoc_In in A. pose proof quirk_names_ok as Q. unfold quirk_names in Q. rewrite forallb_forall in Q. specialize (Q _ A). cbn [fst snd] in Q.
  destruct (zin op _) eqn:Z; [apply zin_In in Z; contradiction|]. apply zlist_eqb_eq in Q. exact Q.
Qed.

(** ** Spellings and comparisons *)
Definition spelling_ok (p : list Z * string) : bool :=
  existsb (fun q => if existsb (zlist_eqb (fst p)) (snd q) then (if zlist_eqb (symbol_text (snd p)) (bytes (fst q)) then negb (zlist_eqb (bytes (fst q)) comma_text) else false) else false) SPELLINGS.
Lemma spellings_ok : forallb spelling_ok SPECIAL_SYMBOLS = true.  Proof. vm_compute. reflexivity. Qed.
Lemma find_spelling_In : forall s l n, find_spelling s l = Some n -> In (s, n) l.
Proof. intros s l n. induction l as [|[t m] l IH]; cbn [find_spelling]; [discriminate|]. destruct (zlist_eqb s t) eqn:E; [|intros H; right; auto]. intros [= <-]. apply zlist_eqb_eq in E. subst t. left. reflexivity. Qed.
Lemma spelling_found : forall x full, find_spelling x SPECIAL_SYMBOLS = Some full -> exists s l, In (s, l) SPELLINGS /\ In x l /\ symbol_text full = bytes s /\ bytes s <> comma_text.
Proof.
  intros x full F. apply find_spelling_In in F. pose proof spellings_ok as S. rewrite forallb_forall in S. specialize (S _ F). unfold spelling_ok in S. apply existsb_exists in S as ([s l] & Hin & S). cbn [fst snd] in S.
  destruct (existsb _ l) eqn:E; [|discriminate S]. apply existsb_exists in E as (y & Hy & E). apply zlist_eqb_eq in E. subst y. destruct (zlist_eqb (symbol_text full) _) eqn:T; [|discriminate S]. apply zlist_eqb_eq in T. apply negb_true_iff in S.
  exists s, l. split; [exact Hin|]. split; [exact Hy|]. split; [exact T|]. intros X. rewrite X in S. vm_compute in S. discriminate S.
Qed.
(** ** Integers as they are written *)
Lemma digits_fuel_value : forall k n acc, 0 <= n < 10 ^ Z.of_nat k -> Forall (fun d => 48 <= d <= 57) acc ->
  Forall (fun d => 48 <= d <= 57) (digits_fuel k n acc) /\ (acc <> [] -> digits_fuel k n acc <> []) /\
  fold_left (fun v d => 10 * v + (d - 48)) (digits_fuel k n acc) 0 = fold_left (fun v d => 10 * v + (d - 48)) acc n.
Proof.
  induction k as [|k IH]; intros n acc Hn Ha.
  - cbn [digits_fuel]. change (10 ^ Z.of_nat 0) with 1 in Hn. replace n with 0 by lia. auto.
  - cbn [digits_fuel]. cbv zeta. pose proof (Z.div_mod n 10 ltac:(lia)) as D. pose proof (Z.mod_pos_bound n 10 ltac:(lia)) as B.
    assert (Ha' : Forall (fun d => 48 <= d <= 57) ((48 + n mod 10) :: acc)) by (constructor; [lia|exact Ha]).
    destruct (Z.eqb_spec (n / 10) 0) as [Z0|Z0].
    + split; [exact Ha'|]. split; [discriminate|]. cbn [fold_left]. f_equal. lia.
    + assert (Hk : 0 <= n / 10 < 10 ^ Z.of_nat k).
      { split; [apply Z.div_pos; lia|]. apply Z.div_lt_upper_bound; [lia|]. rewrite Nat2Z.inj_succ, Z.pow_succ_r in Hn by lia. lia. }
      destruct (IH (n / 10) _ Hk Ha') as (I1 & I2 & I3). split; [exact I1|]. split; [intros _; apply I2; discriminate|]. rewrite I3. cbn [fold_left]. f_equal. lia.
Qed.
Lemma int_text_digits : forall n, 0 <= n -> digits (int_text n) /\ decimal (int_text n) = n.
Proof.
  intros n Hn. unfold int_text. cbv zeta. rewrite Z.abs_eq by lia. destruct (Z.ltb_spec n 0) as [|_]; [lia|].
  set (k := S (Z.to_nat (Z.log2 n))). assert (Hk : 0 <= n < 10 ^ Z.of_nat k).
  { split; [lia|]. apply Z.lt_le_trans with (2 ^ Z.of_nat k); [|apply Z.pow_le_mono_l; lia]. subst k. rewrite Nat2Z.inj_succ, Z2Nat.id by apply Z.log2_nonneg.
    destruct (Z.eq_dec n 0) as [->|]; [reflexivity|]. apply Z.log2_spec. lia. }
  destruct (digits_fuel_value k n [] Hk (Forall_nil _)) as (I1 & _ & I3). split; [split; [|exact I1]|exact I3].
  subst k. cbn [digits_fuel]. cbv zeta. destruct (_ =? 0); [discriminate|].
  intros X. pose proof (Z.mod_pos_bound n 10 ltac:(lia)) as B. assert (Hk' : 0 <= n / 10 < 10 ^ Z.of_nat (Z.to_nat (Z.log2 n))).
  { split; [apply Z.div_pos; lia|]. apply Z.div_lt_upper_bound; [lia|]. rewrite Nat2Z.inj_succ, Z.pow_succ_r in Hk by lia. lia. }
  destruct (digits_fuel_value _ _ [48 + n mod 10] Hk' ltac:(constructor; [lia|constructor])) as (_ & N & _). apply N; [discriminate|exact X].
Qed.
Lemma int_text_negative : forall n, 0 < n -> int_text (- n) = 45 :: int_text n.
Proof. intros n Hn. unfold int_text. cbv zeta. rewrite Z.abs_opp. destruct (Z.ltb_spec (- n) 0); [|lia]. destruct (Z.ltb_spec n 0); [lia|]. reflexivity. Qed.

(** ** Percent signs *)
Lemma strip_shorter : forall p l r, strip_prefix p l = Some r -> (length l = length p + length r)%nat.
Proof. induction p as [|x p IH]; intros l r E; cbn [strip_prefix] in E; [injection E as <-; reflexivity|]. destruct l as [|y l]; [discriminate E|]. destruct (x =? y); [|discriminate E]. cbn. rewrite (IH _ _ E). reflexivity. Qed.
Lemma count_fuel : forall p k k' l, p <> [] -> (length l < k)%nat -> (length l < k')%nat -> count_matches k p l = count_matches k' p l.
Proof.
  intros p k. induction k as [|k IH]; intros k' l N H H'; [lia|]. destruct k' as [|k']; [lia|]. cbn [count_matches]. destruct (strip_prefix p l) as [r|] eqn:E.
  - apply strip_shorter in E. f_equal. apply IH; [exact N| |]; destruct p; try (exfalso; apply N; reflexivity); cbn [length] in E; lia.
  - destruct l as [|x r]; [reflexivity|]. cbn [length] in *. apply IH; [exact N|lia|lia].
Qed.
Lemma matches_same : forall p l, bytes p <> [] -> matches p (bytes p ++ l) = 1 + matches p l.
Proof.
  intros p l N. unfold matches. change (bytes_of_string p) with (bytes p). remember (S (Datatypes.length l)) as k' eqn:Ek. cbn [count_matches].
  assert (S : strip_prefix (bytes p) (bytes p ++ l) = Some l). { clear N. induction (bytes p) as [|x q IH]; [destruct l; reflexivity|]. cbn [strip_prefix List.app]. rewrite Z.eqb_refl. exact IH. }
  rewrite S. f_equal. subst k'. apply count_fuel; [exact N|rewrite app_length; destruct (bytes p); [exfalso; apply N; reflexivity|cbn [length]; lia]|lia].
Qed.
Lemma percents_count : forall s n, percents s n -> percent_count s = n.
Proof.
  intros s n H. induction H as [|p s n Hp H IH]; [reflexivity|]. rewrite <- IH. clear - Hp.
  assert (other : forall q, q <> "" -> bytes q <> []) by (intros [|c q] N; [congruence|discriminate]).
  unfold percent_count. cbn [PERCENTS In] in Hp.
  repeat match type of Hp with _ \/ _ => destruct Hp as [<-|Hp] end; try contradiction;
    rewrite matches_same by (apply other; discriminate);
    repeat match goal with |- context [matches ?q (bytes ?p ++ s)] => change (matches q (bytes p ++ s)) with (matches q s) end; lia.
Qed.

(** ** Names *)
Lemma spellings_same : map (fun p => (fst p, symbol_text (snd p))) SPECIAL_SYMBOLS = flat_map (fun p => map (fun x => (x, bytes (fst p))) (snd p)) SPELLINGS.
Proof. vm_compute. reflexivity. Qed.
Fixpoint look (x : list Z) (l : list (list Z * list Z)) : option (list Z) := match l with [] => None | (t, n) :: r => if zlist_eqb x t then Some n else look x r end.
Lemma look_found : forall x l, option_map symbol_text (find_spelling x l) = look x (map (fun p => (fst p, symbol_text (snd p))) l).
Proof. intros x l. induction l as [|[t n] l IH]; [reflexivity|]. cbn [find_spelling map look fst snd]. destruct (zlist_eqb x t); [reflexivity|exact IH]. Qed.
Lemma look_app : forall x a b, look x (a ++ b) = match look x a with Some n => Some n | None => look x b end.
Proof. intros x a b. induction a as [|[t n] a IH]; [reflexivity|]. cbn [List.app look]. destruct (zlist_eqb x t); [reflexivity|exact IH]. Qed.
Lemma look_row : forall x n l, look x (map (fun y => (y, n)) l) = if existsb (zlist_eqb x) l then Some n else None.
Proof. intros x n l. induction l as [|t l IH]; [reflexivity|]. cbn [map look existsb]. destruct (zlist_eqb x t); [reflexivity|exact IH]. Qed.
Lemma spelling_canonical : forall x, canonical x = match find_spelling x SPECIAL_SYMBOLS with Some full => symbol_text full | None => x end.
Proof.
  intros x. assert (F : option_map symbol_text (find_spelling x SPECIAL_SYMBOLS) = option_map (fun p => bytes (fst p)) (find (fun p => existsb (zlist_eqb x) (snd p)) SPELLINGS)).
  { rewrite look_found, spellings_same. generalize SPELLINGS as l. intros l. induction l as [|[s r] l IH]; [reflexivity|]. cbn [flat_map find fst snd]. rewrite look_app, look_row. destruct (existsb _ r); [reflexivity|exact IH]. }
  unfold canonical. destruct (find_spelling x _) as [full|], (find _ SPELLINGS) as [[s l]|]; cbn [option_map fst] in F; try discriminate F; [injection F as F; auto|reflexivity].
Qed.
Definition ALL_COMPARISONS := PLAIN_COMPARISONS ++ OTHER_COMPARISONS ++ VECTOR_COMPARISONS.
Definition mem (s : string) (table : list (string * list Z)) : bool := existsb (fun p => String.eqb s (fst p)) table.
Lemma mem_named : forall s table, mem s table = true <-> named table s.
Proof.
  intros s table. unfold mem, named. rewrite existsb_exists, in_map_iff. split; [intros (p & H & E)|intros (p & E & H)]; exists p; [apply String.eqb_eq in E; auto|split; [exact H|rewrite E; apply String.eqb_refl]].
Qed.
Definition is_comparison (s : string) : bool := mem s ALL_COMPARISONS.
Definition affinity (s : string) : option bool := if mem s VECTOR_COMPARISONS then Some true else if mem s OTHER_COMPARISONS then Some false else None.
Definition text_ok (p : string * list Z) : bool := if zlist_eqb (symbol_text (String.append "System`" (fst p))) (bytes (fst p)) then negb (zlist_eqb (bytes (fst p)) comma_text) else false.
Lemma texts_ok : forallb text_ok ALL_COMPARISONS = true.  Proof. vm_compute. reflexivity. Qed.
Lemma is_comparison_text : forall s, is_comparison s = true -> symbol_text (String.append "System`" s) = bytes s /\ bytes s <> comma_text.
Proof.
  intros s H. apply existsb_exists in H as (p & Hin & E). apply String.eqb_eq in E. subst s. pose proof texts_ok as T. rewrite forallb_forall in T. specialize (T _ Hin). unfold text_ok in T. destruct (zlist_eqb (symbol_text _) _) eqn:T1; [|discriminate T].
  apply zlist_eqb_eq in T1. split; [exact T1|]. intros X. rewrite X in T. vm_compute in T. discriminate T.
Qed.
Definition chain_ok (table : list (string * list Z)) (full : string) : bool := existsb (fun p => String.eqb full (String.append "System`" (fst p))) table.
Lemma chains_ok : forallb (chain_ok (PLAIN_COMPARISONS ++ OTHER_COMPARISONS)) SIMPLE_CHAINS = true /\ forallb (chain_ok VECTOR_COMPARISONS) VECTOR_CHAINS = true.
Proof. split; vm_compute; reflexivity. Qed.
Lemma chain_found : forall table full, incl table ALL_COMPARISONS -> chain_ok table full = true -> exists s, full = String.append "System`" s /\ named table s /\ symbol_text full = bytes s /\ bytes s <> comma_text.
Proof.
  intros table full Hi H. apply existsb_exists in H as (p & Hin & E). apply String.eqb_eq in E. exists (fst p). split; [exact E|]. split; [apply in_map; exact Hin|]. subst full. apply is_comparison_text. apply existsb_exists. exists p. split; [apply Hi; exact Hin|apply String.eqb_refl].
Qed.
Lemma simple_chain : forall full, In full SIMPLE_CHAINS -> exists s, full = String.append "System`" s /\ named (PLAIN_COMPARISONS ++ OTHER_COMPARISONS) s /\ symbol_text full = bytes s /\ bytes s <> comma_text.
Proof.
  intros full H. apply chain_found; [|destruct chains_ok as [C _]; rewrite forallb_forall in C; apply C; exact H]. intros p Hp. unfold ALL_COMPARISONS. rewrite app_assoc. apply in_or_app. left. exact Hp.
Qed.
Lemma vector_chain : forall full, In full VECTOR_CHAINS -> exists s, full = String.append "System`" s /\ named VECTOR_COMPARISONS s /\ symbol_text full = bytes s /\ bytes s <> comma_text.
Proof.
  intros full H. apply chain_found; [|destruct chains_ok as [_ C]; rewrite forallb_forall in C; apply C; exact H]. intros p Hp. unfold ALL_COMPARISONS. rewrite app_assoc. apply in_or_app. right. exact Hp.
Qed.
Definition affinity_is (full : string) (x : option bool) : bool :=
  match vectorInequalityAffinity full, x with Ok None, None => true | Ok (Some a), Some b => Bool.eqb a b | _, _ => false end.
Definition compare_ok (p : string * list Z) : bool :=
  if affinity_is (String.append "System`" (fst p)) (affinity (fst p)) then
    forallb (fun k => match assoc k INEQUALITIES with Some full => String.eqb full (String.append "System`" (fst p)) | None => false end) (snd p)
  else false.
Lemma compares_ok : forallb compare_ok ALL_COMPARISONS = true.  Proof. vm_compute. reflexivity. Qed.
Lemma compares_symbol : forall t s, compares t s -> inequalityOperatorToSymbol (t_kind t) = Ok (String.append "System`" s) /\ vectorInequalityAffinity (String.append "System`" s) = Ok (affinity s) /\ is_comparison s = true.
Proof.
  intros t s (ks & Hin & Hk). pose proof compares_ok as C. rewrite forallb_forall in C. specialize (C _ Hin). unfold compare_ok in C. cbn [fst snd] in C. destruct (affinity_is _ _) eqn:A; [|discriminate C]. rewrite forallb_forall in C. specialize (C _ Hk).
  split; [|split].
  - unfold inequalityOperatorToSymbol. destruct (assoc (t_kind t) INEQUALITIES) as [full|]; [|discriminate C]. apply String.eqb_eq in C. subst. reflexivity.
  - unfold affinity_is in A. destruct (vectorInequalityAffinity _) as [[a|]| |]; destruct (affinity s) as [b|]; try discriminate A; [apply Bool.eqb_prop in A; subst|]; reflexivity.
  - apply existsb_exists. exists (s, ks). split; [exact Hin|apply String.eqb_refl].
Qed.
Lemma affinity_vector : forall s, affinity s = Some true -> named VECTOR_COMPARISONS s.
Proof. intros s H. unfold affinity in H. apply mem_named. destruct (mem s VECTOR_COMPARISONS); [reflexivity|]. destruct (mem s OTHER_COMPARISONS); discriminate H. Qed.
Lemma affinity_other : forall s, affinity s = Some false -> named OTHER_COMPARISONS s.
Proof. intros s H. unfold affinity in H. apply mem_named. destruct (mem s VECTOR_COMPARISONS); [discriminate H|]. destruct (mem s OTHER_COMPARISONS); [reflexivity|discriminate H]. Qed.

Lemma Ok_inj : forall A (x y : A), Ok x = Ok y -> x = y.
Proof. intros A x y [= E]. exact E. Qed.

(** ** Separated lists *)
Lemma separated_evens : forall ch ts xs, separated ch ts xs -> evens ch = xs.
Proof. intros ch ts xs H. induction H as [x|x t r ts xs H IH]; [reflexivity|]. cbn [evens]. rewrite IH. reflexivity. Qed.
Lemma separated_odd : forall ch ts xs, separated ch ts xs -> Nat.even (length ch) = false.
Proof. intros ch ts xs H. induction H as [x|x t r ts xs H IH]; [reflexivity|]. exact IH. Qed.
Lemma separated_chunks : forall ch ts xs, separated ch ts xs -> exists x r xs', ch = x :: r /\ xs = x :: xs' /\ chunks2 r = Ok (combine (map Tok ts) xs') /\ length ts = length xs'.
Proof.
  intros ch ts xs H. induction H as [x|x t r ts xs H IH]; [exists x, [], []; auto|]. destruct IH as (y & r' & xs' & -> & -> & E & L). exists x, (Tok t :: y :: r'), (y :: xs'). split; [reflexivity|]. split; [reflexivity|].
  split; [cbn [chunks2 map combine]; rewrite E; reflexivity|cbn; rewrite L; reflexivity].
Qed.

Section Value.
  Variable w : world.
  Hypothesis L : lawful w.
  Notation val := (V w).
  Notation means := (means w).
  Notation denotes := (denotes w).

  (** ** Arithmetic *)
  Lemma product_app : forall a b, product w (a ++ b) = times w (product w a) (product w b).
  Proof.
    intros a b. induction a as [|x a IH]; cbn [List.app product fold_right]; [symmetry; apply (times_one w L)|]. fold (product w (a ++ b)). rewrite IH. rewrite (times_assoc w L). reflexivity.
  Qed.
  Lemma product_one : forall a, product w [a] = a.  Proof. intros a. apply (times_one w L). Qed.
  Lemma product_concat : forall ls, product w (concat ls) = product w (map (product w) ls).
  Proof. intros ls. induction ls as [|l ls IH]; [reflexivity|]. cbn [concat map]. rewrite product_app, IH. reflexivity. Qed.
  Lemma sum_one : forall a, sum w [a] = a.  Proof. intros a. apply (plus_zero w L). Qed.
  Definition signed (p : token * val) : val := if subtracts (fst p) then minus w (snd p) else snd p.
  Lemma total_sum : forall l a, total w a l = sum w (a :: map signed l).
  Proof.
    intros l. induction l as [|[t b] l IH]; intros a; [symmetry; apply sum_one|]. cbn [total map]. rewrite IH. unfold signed at 2. cbn [fst snd sum fold_right]. symmetry. apply (plus_assoc w L).
  Qed.
  Lemma minus_one_times : forall a, times w (minus w (one w)) a = minus w a.  Proof. intros a. symmetry. apply (minus_times w L). Qed.
  Lemma minus_one_written : number w TK_Integer [45; 49] = minus w (one w).
  Proof. change [45; 49] with (45 :: bytes "1"). rewrite (minus_written w L) by auto. f_equal. exact (one_written w L). Qed.

  (** ** Values of abstract trees that are not taken for commas *)
  Definition comma_leaf (a : ast) : bool := match a with ALeaf k s _ => (k =? TK_Symbol) && zlist_eqb s comma_text | _ => false end.
  Definition plain (a : ast) : Prop := comma_leaf a = false /\ match a with ACall h _ _ => comma_leaf h = false | _ => True end.
  Definition vals (a : ast) (v : val) : Prop := denotes a v /\ plain a.
  Lemma plain_select : forall a, plain a -> selectChildren a = [a].
  Proof. intros a [_ H]. destruct a as [| |h l d| | | | | | | | | |]; try reflexivity. destruct h as [k s d0| | | | | | | | | | | |]; try reflexivity. cbn [selectChildren]. cbn [comma_leaf] in H. unfold comma_text in H. rewrite H. reflexivity. Qed.
  Lemma vals_selects : forall l vs, Forall2 vals l vs -> flat_map selectChildren l = l.
  Proof. intros l vs H. induction H as [|a v l vs [_ Ha] H IH]; [reflexivity|]. cbn [flat_map]. rewrite (plain_select _ Ha), IH. reflexivity. Qed.
  Lemma vals_denotes : forall l vs, Forall2 vals l vs -> Forall2 denotes l vs.
  Proof. intros l vs H. induction H as [|a v l vs [Ha _] H IH]; constructor; auto. Qed.
  Lemma not_comma_leaf : forall s d, s <> comma_text -> comma_leaf (ALeaf TK_Symbol s d) = false.
  Proof. intros s d N. cbn [comma_leaf]. destruct (zlist_eqb s comma_text) eqn:E; [apply zlist_eqb_eq in E; contradiction|reflexivity]. Qed.
  (** a call of a predefined function *)
  Lemma vals_call : forall full s l d vs, symbol_text full = bytes s -> bytes s <> comma_text -> Forall2 vals l vs -> vals (call full l d) (app w s vs).
  Proof.
    intros full s l d vs E N H. unfold call, symbol_leaf. rewrite E. split; [|split; [reflexivity|apply not_comma_leaf; exact N]]. apply denotes_call; [apply denotes_name|apply vals_denotes; exact H].
  Qed.
  Lemma vals_acall : forall h l d f vs, vals h f -> Forall2 vals l vs -> vals (ACall h l d) (apply_to w f vs).
  Proof. intros h l d f vs [Hh [Ph _]] H. split; [apply denotes_call; [exact Hh|apply vals_denotes; exact H]|split; [reflexivity|exact Ph]]. Qed.
  Lemma vals_number : forall k s d, k = TK_Integer \/ k = TK_Real -> vals (ALeaf k s d) (number w k s).
  Proof. intros k s d K. split; [apply denotes_number; exact K|split; [|exact I]]. destruct K as [-> | ->]; reflexivity. Qed.
  Lemma vals_name : forall full s d, symbol_text full = bytes s -> bytes s <> comma_text -> vals (symbol_leaf full d) (name w s).
  Proof. intros full s d E N. unfold symbol_leaf. rewrite E. split; [apply denotes_name|split; [apply not_comma_leaf; exact N|exact I]]. Qed.
  Lemma vals_one : forall d, vals (int_leaf 1 d) (int w "1").
  Proof. intros d. apply (vals_number TK_Integer [49]). left. reflexivity. Qed.
  Lemma vals_minus_one : vals (int_leaf (-1) no_meta) (minus w (one w)).
  Proof. rewrite <- minus_one_written. apply (vals_number TK_Integer [45; 49]). left. reflexivity. Qed.
  Lemma vals_integer : forall n d, 0 <= n -> vals (int_leaf n d) (integer w n).
  Proof. intros n d H. destruct (int_text_digits n H) as [D E]. rewrite <- E at 2. rewrite <- (integer_written w L _ D). apply vals_number. left. reflexivity. Qed.
  Lemma vals_negative : forall n d, 0 < n -> vals (int_leaf (- n) d) (minus w (integer w n)).
  Proof.
    intros n d H. destruct (int_text_digits n ltac:(lia)) as [D E]. rewrite <- E at 2. rewrite <- (integer_written w L _ D), <- (minus_written w L) by (left; reflexivity). unfold int_leaf. rewrite int_text_negative by exact H. apply vals_number. left. reflexivity.
  Qed.
  Lemma vals_text : forall s d, vals (string_leaf s d) (text w s).
  Proof. intros s d. split; [apply denotes_text|split; [reflexivity|exact I]]. Qed.
  Lemma two : forall a v, vals a v -> Forall2 vals [a] [v].  Proof. intros. repeat constructor; auto; apply H. Qed.

  (** ** What a tree with a value is *)
  Ltac notin H := exfalso; apply H; cbn [In]; auto 12.
  Lemma inv_paren : forall ch v, means (Op KGroup GOP_CodeParser_GroupParen ch) v -> exists t n u, ch = [t; n; u] /\ ~ is_comma n /\ means n v.
  Proof. intros ch v H. inversion H; subst; [eauto 8|]. match goal with N : ~ In _ _ |- _ => notin N end. Qed.
  Lemma inv_minus : forall ch v, means (Op KPrefix PREOP_Minus ch) v -> exists t n x, ch = [t; n] /\ means n x /\ v = minus w x.
  Proof. intros ch v H. inversion H; subst; [eauto 8|]. match goal with N : ~ In _ _ |- _ => notin N end. Qed.
  Lemma inv_plus : forall ch v, means (Op KPrefix PREOP_Plus ch) v -> exists t n, ch = [t; n] /\ means n v.
  Proof. intros ch v H. inversion H; subst; [eauto 8|]. match goal with N : ~ In _ _ |- _ => notin N end. Qed.
  Lemma inv_times : forall ch v, means (Op KInfix IOP_Times ch) v -> exists ts xs vs, separated ch ts xs /\ Forall2 means xs vs /\ v = product w vs.
  Proof. intros ch v H. inversion H; subst; [eauto 8|]. match goal with N : ~ In _ _ |- _ => notin N end. Qed.
  Lemma inv_divide : forall ch v, means (Op KBinary BOP_Divide ch) v -> exists a t b x y, ch = [a; t; b] /\ means a x /\ means b y /\ v = over w x y.
  Proof. intros ch v H. inversion H; subst; [do 5 eexists; eauto| |match goal with N : In _ _ |- _ => destruct N as [N|[N|[]]]; discriminate N end]. match goal with N : ~ In _ _ |- _ => notin N end. Qed.
  Lemma inv_at : forall ch v, means (Op KBinary BOP_CodeParser_BinaryAt ch) v -> exists a t b f x, ch = [a; t; b] /\ means a f /\ means b x /\ v = apply_to w f [x].
  Proof. intros ch v H. inversion H; subst; [do 5 eexists; eauto| |match goal with N : In _ _ |- _ => destruct N as [N|[N|[]]]; discriminate N end]. match goal with N : ~ In _ _ |- _ => notin N end. Qed.
  Lemma inv_number : forall t v, means (Tok t) v -> t_kind t = TK_Integer \/ t_kind t = TK_Real -> v = number w (t_kind t) (t_text t).
  Proof.
    intros t v H K. inversion H as [t0 K0|t0 K0|t0 K0|t0 v0 S| | | | | | | | | | | | | | | | | | | | | | | | | | | | | | | | | |t0 n K0| | | | | |]; subst; auto; exfalso; destruct K as [K|K]; try (rewrite K0 in K; discriminate K); rewrite K in S; discriminate S.
  Qed.
  Lemma inv_symbol : forall t v, means (Tok t) v -> t_kind t = TK_Symbol -> v = variable w (canonical (t_text t)).
  Proof.
    intros t v H K. inversion H as [t0 K0|t0 K0|t0 K0|t0 v0 S| | | | | | | | | | | | | | | | | | | | | | | | | | | | | | | | | |t0 n K0| | | | | |]; subst; auto; exfalso; [destruct K0 as [K0|K0]| | |]; try (rewrite K0 in K; discriminate K); rewrite K in S; discriminate S.
  Qed.

  (** ** Negation *)
  Lemma zero_value : forall n v, possiblyNegatedZeroQ n = Ok true -> means n v -> v = zero w.
  Proof.
    apply (cst_ind' (fun n => forall v, possiblyNegatedZeroQ n = Ok true -> means n v -> v = zero w)). intros n IH v E M. rewrite Forall_forall in IH. destruct n as [t|h b op body|e ch|k op ch|b ch src|x y src]; try discriminate E.
    - cbn [possiblyNegatedZeroQ] in E. destruct (Z.eqb_spec (t_kind t) TK_Integer) as [K|_]; [|discriminate E]. unfold as_str in E. destruct (utf8_valid _); [|discriminate E]. injection E as E. apply zlist_eqb_eq in E.
      rewrite (inv_number _ _ M) by auto. rewrite K, E. exact (zero_written w L).
    - destruct k; try discriminate E; cbn [possiblyNegatedZeroQ] in E.
      + destruct (Z.eqb_spec op PREOP_Minus) as [->|_]; [|discriminate E]. destruct (inv_minus _ _ M) as (t & c & x & -> & Mc & ->). rewrite (IH c (or_intror (or_introl eq_refl)) x E Mc). exact (minus_zero w L).
      + destruct (Z.eqb_spec op GOP_CodeParser_GroupParen) as [->|_]; [|discriminate E]. destruct (inv_paren _ _ M) as (t & c & u & -> & _ & Mc). exact (IH c (or_intror (or_introl eq_refl)) v E Mc).
  Qed.
  (** the value of what negation gives *)
  Definition gval (g : negated) (v : val) : Prop :=
    match g with
    | Integer0 => v = zero w
    | IntegerNegated t => v = minus w (number w TK_Integer (t_text t))
    | RealNegated t => v = minus w (number w TK_Real (t_text t))
    | InfixTimesSeq l => exists vs, Forall2 means (evens l) vs /\ v = minus w (product w vs)
    end.
  Lemma gval_negate : forall n v g, means n v -> negate n = Ok g -> gval g (minus w v).
  Proof.
    apply (cst_ind' (fun n => forall v g, means n v -> negate n = Ok g -> gval g (minus w v))). intros n IH v g M E. rewrite Forall_forall in IH.
    assert (D : Ok (InfixTimesSeq [n]) = Ok g -> gval g (minus w v)) by (intros [= <-]; exists [v]; split; [repeat constructor; exact M|rewrite product_one; reflexivity]).
    destruct n as [t|h b op body|e ch|k op ch|b ch src|x y src]; try exact (D E).
    - cbn [negate] in E. destruct (Z.eqb_spec (t_kind t) TK_Integer) as [K|_].
      + unfold as_str in E. destruct (utf8_valid _); [|discriminate E]. cbn [rbind] in E. injection E as <-. rewrite (inv_number _ _ M) by auto. rewrite K. destruct (zlist_eqb (t_text t) [48]) eqn:Z; [|reflexivity].
        apply zlist_eqb_eq in Z. rewrite Z. cbn [gval]. change (number w TK_Integer [48]) with (int w "0"). rewrite (zero_written w L). exact (minus_zero w L).
      + destruct (Z.eqb_spec (t_kind t) TK_Real) as [K|_]; [|exact (D E)]. injection E as <-. rewrite (inv_number _ _ M) by auto. rewrite K. reflexivity.
    - destruct k; try exact (D E); cbn [negate] in E.
      + destruct (Z.eqb_spec op PREOP_Minus) as [->|_]; [|exact (D E)]. destruct (inv_minus _ _ M) as (t & c & x & -> & Mc & ->). apply rbind_Ok in E as (z & Ez & E). destruct z; [|exact (D E)].
        pose proof (zero_value _ _ Ez Mc) as X. specialize (IH c (or_intror (or_introl eq_refl)) x g Mc E). rewrite X in *. rewrite (minus_zero w L) in *. rewrite (minus_zero w L). exact IH.
      + destruct (Z.eqb_spec op IOP_Times) as [->|_]; [|exact (D E)]. injection E as <-. destruct (inv_times _ _ M) as (ts & xs & vs & S & F & ->). exists vs. rewrite (separated_evens _ _ _ S). auto.
      + destruct (Z.eqb_spec op GOP_CodeParser_GroupParen) as [->|_]; [|exact (D E)]. destruct (inv_paren _ _ M) as (t & c & u & -> & _ & Mc). apply rbind_Ok in E as (z & Ez & E). specialize (IH c (or_intror (or_introl eq_refl)) v g Mc).
        destruct z; [exact (IH E)|]. apply rbind_Ok in E as (q & _ & E). destruct q; [exact (IH E)|exact (D E)].
  Qed.

  Variable o : aopts.
  Hypothesis Hfmt : forall s, bare s -> a_fmt o s = 34 :: s ++ [34].
  Variable rec : cst -> res ast.
  Hypothesis Hrec : forall n v a, means n v -> rec n = Ok a -> vals a v.

  Lemma rec_list : forall xs vs l, Forall2 means xs vs -> mapr rec xs = Ok l -> Forall2 vals l vs.
  Proof.
    intros xs vs l F E. apply mapr_Ok in E. revert vs F. induction E as [|x a xs l E F IH]; intros vs M; inversion M; subst; constructor; eauto.
  Qed.

  (** ** Products *)
  Definition oval (x : oper) (v : val) : Prop :=
    match x with
    | OCst n => means n v
    | OReciprocate n _ => exists y, means n y /\ v = power w y (minus w (one w))
    | ONegativeOne => v = minus w (one w)
    | ONegated g _ => gval g v
    end.
  Lemma oval_flatten : forall data n v l, means n v -> flatten_times_cst o n data = Ok l -> exists vs, Forall2 oval l vs /\ product w vs = v.
  Proof.
    intros data. apply (cst_ind' (fun n => forall v l, means n v -> flatten_times_cst o n data = Ok l -> exists vs, Forall2 oval l vs /\ product w vs = v)). intros n IH v l M E. rewrite Forall_forall in IH.
    assert (D : Ok [OCst n] = Ok l -> exists vs, Forall2 oval l vs /\ product w vs = v) by (intros [= <-]; exists [v]; split; [repeat constructor; exact M|apply product_one]).
    destruct n as [t|h m op body|e ch|k op ch|b ch src|a b src]; try exact (D E). destruct k; try exact (D E); cbn [flatten_times_cst] in E.
    - destruct (Z.eqb_spec op PREOP_Minus) as [->|_]; [|exact (D E)]. destruct (inv_minus _ _ M) as (t & c & x & -> & Mc & ->). apply rbind_Ok in E as (q & _ & E). destruct q.
      + apply rbind_Ok in E as (g & Eg & E). injection E as <-. exists [minus w x]. split; [repeat constructor; exact (gval_negate _ _ _ Mc Eg)|apply product_one].
      + destruct (q_flatten_times o); [|exact (D E)]. apply rbind_Ok in E as (r & Er & E). injection E as <-. destruct (IH c (or_intror (or_introl eq_refl)) x r Mc Er) as (vs & F & <-).
        exists (minus w (one w) :: vs). split; [constructor; [reflexivity|exact F]|]. apply minus_one_times.
    - destruct (Z.eqb_spec op IOP_Times) as [->|_]; [|exact (D E)]. destruct (a_dbg o && _); [discriminate E|]. rewrite flatten_infix in E. apply rbind_Ok in E as (ls & E & X). injection X as <-. apply mapr_Ok in E.
      destruct (inv_times _ _ M) as (ts & xs & vs & S & F & ->). pose proof (separated_evens _ _ _ S) as Ev. rewrite Ev in E.
      assert (Hi : forall c, In c xs -> forall v l, means c v -> flatten_times_cst o c data = Ok l -> exists vs, Forall2 oval l vs /\ product w vs = v).
      { intros c Hin. rewrite <- Ev in Hin. apply evens_in in Hin. exact (IH c Hin). }
      clear - E Hi F L. revert vs F. induction E as [|c b cs bs E F IHF]; intros vs M; inversion M as [|c0 v0 cs0 vs0 Mc Mr]; subst; [exists []; split; [constructor|reflexivity]|].
      destruct (Hi c (or_introl eq_refl) v0 b Mc E) as (us & Fu & <-). destruct (IHF (fun c Hin => Hi c (or_intror Hin)) vs0 Mr) as (us2 & Fu2 & X). exists (us ++ us2). split; [apply Forall2_app; auto|]. rewrite product_app, X. reflexivity.
    - destruct (Z.eqb_spec op BOP_Divide) as [->|_]; [|exact (D E)]. destruct (q_flatten_times o); [|exact (D E)]. destruct (inv_divide _ _ M) as (a & t & b & x & y & -> & Ma & Mb & ->). apply rbind_Ok in E as (r & Er & E). injection E as <-.
      destruct (IH a (or_introl eq_refl) x r Ma Er) as (us & Fu & <-). exists (us ++ [power w y (minus w (one w))]). split; [apply Forall2_app; [exact Fu|repeat constructor; exists y; auto]|]. rewrite product_app, product_one. reflexivity.
  Qed.
  Lemma vals_negated_number : forall g data v a, gval g v -> negated_number g data = Ok a -> vals a v.
  Proof.
    intros g data v a G E. destruct g as [|t|t|l]; cbn [gval negated_number] in *; [injection E as <-| | |discriminate E].
    - subst v. rewrite <- (zero_written w L). apply (vals_number TK_Integer [48]). auto.
    - unfold as_str in E. destruct (utf8_valid _); [|discriminate E]. injection E as <-. subst v. rewrite <- (minus_written w L) by auto. apply vals_number. auto.
    - unfold as_str in E. destruct (utf8_valid _); [|discriminate E]. injection E as <-. subst v. rewrite <- (minus_written w L) by auto. apply vals_number. auto.
  Qed.
  Lemma vals_reciprocate : forall n y data a, means n y -> reciprocate_into_ast rec n data = Ok a -> vals a (power w y (minus w (one w))).
  Proof.
    intros n y data a M E. unfold reciprocate_into_ast in E. apply rbind_Ok in E as (b & Eb & E). injection E as <-. rewrite <- (power_args w L). apply vals_call; [reflexivity|discriminate|]. constructor; [exact (Hrec _ _ _ M Eb)|]. apply two, vals_minus_one.
  Qed.
  Lemma vals_operands : forall f l vs args, (forall n v a, means n v -> f n = Ok a -> vals a v) -> Forall2 oval l vs -> mapr (operand_into_ast rec f) l = Ok args -> Forall2 vals args vs.
  Proof.
    intros f l vs args Hf F E. apply mapr_Ok in E. revert vs F. induction E as [|x a l args E F IH]; intros vs M; inversion M as [|x0 v0 l0 vs0 Mx Mr]; subst; constructor; [|apply IH; exact Mr].
    destruct x as [n|n data| |g data]; cbn [operand_into_ast oval] in *; [exact (Hf _ _ _ Mx E)|destruct Mx as (y & My & ->); exact (vals_reciprocate _ _ _ _ My E)|injection E as <-; subst; apply vals_minus_one|exact (vals_negated_number _ _ _ _ Mx E)].
  Qed.
  (** the head taken off an operand of the same operator *)
  Lemma quirk_value : forall n v s m, canonical (bytes s) = bytes s -> (forall x, app w s [x] = x) -> means n v -> processInfixBinaryAtQuirk o n (bytes s) = Ok m -> means m v.
  Proof.
    intros n v s m Hc Hs M E. unfold processInfixBinaryAtQuirk in E. destruct (negb _); [injection E as <-; exact M|]. destruct n as [t|h b op body|e ch|k op ch|b ch src|x y src]; try (injection E as <-; exact M). destruct k; try (injection E as <-; exact M).
    destruct (Z.eqb_spec op BOP_CodeParser_BinaryAt) as [->|_]; [|injection E as <-; exact M]. destruct (inv_at _ _ M) as (a & t & b & f & x & -> & Ma & Mb & ->). apply rbind_Ok in E as (q & Eq & E). destruct q; [|injection E as <-; exact M].
    destruct a as [u| | | | |]; try discriminate Eq. destruct (Z.eqb_spec (t_kind u) TK_Symbol) as [K|_]; [|discriminate Eq]. unfold as_str in Eq. destruct (utf8_valid _); [|discriminate Eq]. injection Eq as Eq. apply zlist_eqb_eq in Eq.
    destruct t as [t| | | | |]; try discriminate E. destruct (_ =? _); [|discriminate E]. injection E as <-. rewrite (inv_symbol _ _ Ma K), Eq, Hc. fold (name w s). fold (app w s [x]). rewrite Hs. exact Mb.
  Qed.
  Lemma vals_times : forall l vs data a, Forall2 means l vs -> abstractTimes_InfixNode o rec l data = Ok a -> exists args us, a = call "System`Times" args (from_src data) /\ Forall2 vals args us /\ product w us = product w vs.
  Proof.
    intros l vs data a F E. unfold abstractTimes_InfixNode in E. apply rbind_Ok in E as (fl & Ef & E). apply rbind_Ok in E as (args & Ea & E). injection E as <-. exists args. unfold flattenTimes in Ef. apply rbind_Ok in Ef as (ls & Ef & X). injection X as <-. apply mapr_Ok in Ef.
    assert (S : exists us, Forall2 oval (concat ls) us /\ product w us = product w vs).
    { clear - Ef F L. revert vs F. induction Ef as [|c b cs bs E F IH]; intros vs M; inversion M as [|c0 v0 cs0 vs0 Mc Mr]; subst; [exists []; split; [constructor|reflexivity]|].
      destruct (oval_flatten _ _ _ _ Mc E) as (u1 & F1 & <-). destruct (IH _ Mr) as (u2 & F2 & X). exists (u1 ++ u2). split; [cbn [concat]; apply Forall2_app; auto|]. rewrite product_app, X. reflexivity. }
    destruct S as (us & F1 & X). exists us. split; [reflexivity|]. split; [|exact X]. eapply vals_operands; [|exact F1|exact Ea]. intros n v b M Eb. apply rbind_Ok in Eb as (m & Em & Eb). apply (quirk_value n v "Times") in Em; [exact (Hrec _ _ _ Em Eb)|reflexivity| |exact M].
    intros x. rewrite (times_args w L). apply product_one.
  Qed.
  Lemma vals_negated : forall g v data a, gval g v -> negated_into_ast o rec g data = Ok a -> vals a v.
  Proof.
    intros g v data a G E. destruct g as [|t|t|l]; try exact (vals_negated_number _ _ _ _ G E). cbn [negated_into_ast] in E. apply rbind_Ok in E as (ch & Ec & E). apply span_even in Ec. subst ch. apply rbind_Ok in E as (b & Eb & E).
    destruct G as (vs & F & ->). apply (vals_times _ _ _ _ F) in Eb as (args & us & -> & Fu & X). cbn [call] in E. injection E as <-. rewrite <- X, <- minus_one_times. change (times w (minus w (one w)) (product w us)) with (product w (minus w (one w) :: us)). rewrite <- (times_args w L).
    apply (vals_call "System`Times" "Times"); [reflexivity|discriminate|]. constructor; [apply vals_minus_one|exact Fu].
  Qed.
  Lemma vals_divide : forall x y u v data a, means x u -> means y v -> abstractTimes_BinaryNode_Divide o rec x y data = Ok a -> vals a (over w u v).
  Proof.
    intros x y u v data a Mx My E. unfold abstractTimes_BinaryNode_Divide in E. apply rbind_Ok in E as (fl & Ef & E). apply rbind_Ok in E as (args & Ea & E). apply rbind_Ok in E as (r & Er & E). injection E as <-.
    destruct (oval_flatten _ _ _ _ Mx Ef) as (us & F & <-). pose proof (vals_operands rec _ _ _ Hrec F Ea) as Fa. pose proof (vals_reciprocate _ _ _ _ My Er) as Fr. unfold over. rewrite <- (product_one (power w v _)), <- product_app, <- (times_args w L).
    apply vals_call; [reflexivity|discriminate|]. apply Forall2_app; [exact Fa|apply two; exact Fr].
  Qed.

  (** ** Sums *)
  Lemma flatten_plus_value : forall n m v, means n v -> flattenPrefixPlus n = Ok m -> means m v.
  Proof.
    apply (cst_ind' (fun n => forall m v, means n v -> flattenPrefixPlus n = Ok m -> means m v)). intros n IH m v M E. rewrite Forall_forall in IH. assert (D : Ok n = Ok m -> means m v) by (intros [= <-]; exact M).
    destruct n as [t|h b op body|e ch|k op ch|b ch src|a b src]; try exact (D E). destruct k; try exact (D E). cbn [flattenPrefixPlus] in E. destruct (Z.eqb_spec op PREOP_Plus) as [->|_]; [|exact (D E)].
    destruct (inv_plus _ _ M) as (t & c & -> & Mc). exact (IH c (or_intror (or_introl eq_refl)) m v Mc E).
  Qed.
  Lemma vals_prefix_plus : forall data n v a, means n v -> abstractPrefixPlus rec n data = Ok a -> vals a v.
  Proof.
    intros data. apply (cst_ind' (fun n => forall v a, means n v -> abstractPrefixPlus rec n data = Ok a -> vals a v)). intros n IH v a M E. rewrite Forall_forall in IH.
    assert (D : rbind (rec n) (fun a => Ok (call "System`Plus" [a] (from_src data))) = Ok a -> vals a v).
    { intros E0. apply rbind_Ok in E0 as (b & Eb & E0). injection E0 as <-. rewrite <- (sum_one v), <- (plus_args w L). apply vals_call; [reflexivity|discriminate|]. apply two. exact (Hrec _ _ _ M Eb). }
    destruct n as [t|h b op body|e ch|k op ch|b ch src|x b src]; try exact (D E). destruct k; try exact (D E). cbn [abstractPrefixPlus] in E. destruct (Z.eqb_spec op PREOP_Plus) as [->|_]; [|exact (D E)].
    destruct (inv_plus _ _ M) as (t & c & -> & Mc). exact (IH c (or_intror (or_introl eq_refl)) v a Mc E).
  Qed.
  Lemma vals_plus : forall ch ts x xs v vs data a, separated ch ts (x :: xs) -> Forall (fun t => adds t = true \/ subtracts t = true) ts -> means x v -> Forall2 means xs vs ->
    abstractPlus o rec ch data = Ok a -> vals a (total w v (combine ts vs)).
  Proof.
    intros ch ts x xs v vs data a S K Mx Ms E. destruct (separated_chunks _ _ _ S) as (x' & r & xs' & -> & X & Ec & Len). injection X as <- <-. unfold abstractPlus in E. rewrite Ec in E. cbn [rbind] in E.
    apply rbind_Ok in E as (pr & Ep & E). apply rbind_Ok in E as (args & Ea & E). injection E as <-. rewrite total_sum, <- (plus_args w L). apply vals_call; [reflexivity|discriminate|]. apply mapr_Ok in Ea. apply mapr_Ok in Ep.
    assert (W : forall n u b, means n u -> rbind (processInfixBinaryAtQuirk o n (bytes_of_string "Plus")) (fun m => rbind (flattenPrefixPlus m) (fun m => rec m)) = Ok b -> vals b u).
    { intros n u b M Eb. apply rbind_Ok in Eb as (m & Em & Eb). apply (quirk_value n u "Plus") in Em; [|reflexivity| |exact M]; [|intros y; rewrite (plus_args w L); apply sum_one]. apply rbind_Ok in Eb as (m2 & Em2 & Eb). exact (Hrec _ _ _ (flatten_plus_value _ _ _ Em Em2) Eb). }
    inversion Ea as [|x0 a0 l0 args0 E0 F0]; subst. constructor; [exact (W _ _ _ Mx E0)|]. clear - Ep F0 W K Ms Len L Hrec. revert pr args0 ts Ep F0 Len K. rename Ms into M. induction M as [|y u xs vs My M IH]; intros pr args0 ts Ep F0 Len K.
    - destruct ts; [|discriminate Len]. inversion Ep; subst. inversion F0; subst. constructor.
    - destruct ts as [|t ts]; [discriminate Len|]. cbn [map combine] in *. inversion Ep as [|p z ps zs Ez Ezs]; subst. inversion F0 as [|z0 b zs0 bs Eb Ebs]; subst. inversion K as [|t0 ts0 Kt Kts]; subst. constructor; [|apply (IH zs bs ts Ezs Ebs); [injection Len; auto|exact Kts]].
      unfold processPlusPair in Ez. unfold signed, subtracts, adds in *. cbn [fst snd] in *. destruct (zin (t_kind t) [TK_Plus; TK_LongName_ImplicitPlus]) eqn:Z1.
      + injection Ez as <-. apply zin_In in Z1. replace ((t_kind t =? TK_Minus) || (t_kind t =? TK_LongName_Minus)) with false; [exact (W _ _ _ My Eb)|]. destruct Z1 as [<-|[<-|[]]]; reflexivity.
      + assert (Z2 : (t_kind t =? TK_Minus) || (t_kind t =? TK_LongName_Minus) = true). { destruct Kt as [Kt|Kt]; [|exact Kt]. exfalso. apply orb_true_iff in Kt as [Kt|Kt]; apply Z.eqb_eq in Kt; rewrite Kt in Z1; discriminate Z1. }
        rewrite Z2. replace (zin (t_kind t) [TK_Minus; TK_LongName_Minus]) with true in Ez by (symmetry; apply zin_In; apply orb_true_iff in Z2 as [Z2|Z2]; apply Z.eqb_eq in Z2; rewrite Z2; cbn; auto).
        apply rbind_Ok in Ez as (s & _ & Ez). apply rbind_Ok in Ez as (s2 & _ & Ez). apply rbind_Ok in Ez as (g & Eg & Ez). injection Ez as <-. exact (vals_negated _ _ _ _ (gval_negate _ _ _ My Eg) Eb).
  Qed.

  (** ** Tokens *)
  Lemma vals_token : forall t v a, means (Tok t) v -> abstract_replace_token t = Ok a -> vals a v.
  Proof.
    intros t v a M E. inversion M as [t0 K N|t0 K|t0 K|t0 v0 S| | | | | | | | | | | | | | | | | | | | | | | | | | | | | | | | | |t0 n K Hp Hn| | | | | |]; subst.
    - unfold abstract_replace_token in E. rewrite K in E. cbv zeta in E. apply rbind_Ok in E as (s & Es & E). unfold as_str in Es. destruct (utf8_valid _); [|discriminate Es]. apply Ok_inj in Es. subst s. apply Ok_inj in E. subst a.
      rewrite spelling_canonical. destruct (find_spelling (t_text t) SPECIAL_SYMBOLS) as [full|] eqn:F; [|split; [apply denotes_name|split; [apply not_comma_leaf; exact N|exact I]]].
      apply spelling_found in F as (s & l & H1 & H2 & H3 & H4). rewrite H3. fold (name w s). apply vals_name; assumption.
    - assert (X : abstract_replace_token t = Ok (ALeaf (t_kind t) (t_text t) (from_src (t_src t)))) by (unfold abstract_replace_token; destruct K as [K|K]; rewrite K; reflexivity). rewrite X in E. injection E as <-. apply vals_number. exact K.
    - assert (X : abstract_replace_token t = Ok (ALeaf TK_String (t_text t) (from_src (t_src t)))) by (unfold abstract_replace_token; rewrite K; reflexivity). rewrite X in E. injection E as <-. split; [apply denotes_text|split; [reflexivity|exact I]].
    - unfold stands_for in S.
      Ltac std E t K r := let X := fresh in assert (X : abstract_replace_token t = Ok r) by (unfold abstract_replace_token; rewrite K; reflexivity); rewrite X in E; clear X; injection E as <-.
      set (d := from_src (t_src t)) in *.
      destruct (Z.eqb_spec (t_kind t) TK_Under) as [K|_]. { injection S as <-. std E t K (call "System`Blank" [] d). apply vals_call; [reflexivity|discriminate|constructor]. }
      destruct (Z.eqb_spec (t_kind t) TK_UnderUnder) as [K|_]. { injection S as <-. std E t K (call "System`BlankSequence" [] d). apply vals_call; [reflexivity|discriminate|constructor]. }
      destruct (Z.eqb_spec (t_kind t) TK_UnderUnderUnder) as [K|_]. { injection S as <-. std E t K (call "System`BlankNullSequence" [] d). apply vals_call; [reflexivity|discriminate|constructor]. }
      destruct (Z.eqb_spec (t_kind t) TK_UnderDot) as [K|_]. { injection S as <-. std E t K (call "System`Optional" [call "System`Blank" [] d] d). apply vals_call; [reflexivity|discriminate|]. apply two. apply vals_call; [reflexivity|discriminate|constructor]. }
      destruct (Z.eqb_spec (t_kind t) TK_Hash) as [K|_]. { injection S as <-. std E t K (call "System`Slot" [int_leaf 1 no_meta] d). apply vals_call; [reflexivity|discriminate|]. apply two, vals_one. }
      destruct (Z.eqb_spec (t_kind t) TK_HashHash) as [K|_]. { injection S as <-. std E t K (call "System`SlotSequence" [int_leaf 1 no_meta] d). apply vals_call; [reflexivity|discriminate|]. apply two, vals_one. }
      destruct (Z.eqb_spec (t_kind t) TK_Percent) as [K|_]. { injection S as <-. std E t K (call "System`Out" [] d). apply vals_call; [reflexivity|discriminate|constructor]. }
      destruct (Z.eqb_spec (t_kind t) TK_Fake_ImplicitOne) as [K|_]. { injection S as <-. std E t K (int_leaf 1 d). apply vals_one. }
      destruct (Z.eqb_spec (t_kind t) TK_Fake_ImplicitAll) as [K|_]. { injection S as <-. std E t K (symbol_leaf "System`All" d). apply vals_name; [reflexivity|discriminate]. }
      destruct (_ || _) eqn:O; [|discriminate S]. injection S as <-. apply orb_true_iff in O as [K|K]; apply Z.eqb_eq in K; std E t K (symbol_leaf "System`Null" d); apply vals_name; (reflexivity || discriminate).
    - unfold abstract_replace_token in E. cbv zeta in E. rewrite K in E. change (TK_PercentPercent =? TK_PercentPercent) with true in E. cbv iota in E. apply rbind_Ok in E as (s & Es & E). unfold as_str in Es. destruct (utf8_valid _); [|discriminate Es]. apply Ok_inj in Es. subst s. apply Ok_inj in E. subst a.
      rewrite (percents_count _ _ Hp). apply vals_call; [reflexivity|discriminate|]. apply two, vals_negative. exact Hn.
  Qed.

  (** ** Comparisons *)
  Definition follows (p : string * ast) (q : string * val) : Prop := fst p = String.append "System`" (fst q) /\ is_comparison (fst q) = true /\ vals (snd p) (snd q).
  Lemma all_same : forall s r rs, forallb (fun p => String.eqb (fst p) (String.append "System`" s)) r = true -> Forall2 follows r rs -> rs = map (pair s) (map snd rs) /\ Forall2 vals (map snd r) (map snd rs).
  Proof.
    intros s r rs E F. induction F as [|[s1 a] [s2 v] r rs (H1 & _ & H2) F IH]; [split; [reflexivity|constructor]|]. cbn [forallb fst snd map] in *. apply andb_true_iff in E as [E1 E2]. apply String.eqb_eq in E1. rewrite H1 in E1. injection E1 as E1. subst s2. destruct (IH E2) as [I1 I2].
    split; [f_equal; exact I1|constructor; assumption].
  Qed.
  Lemma vals_simplify : forall first v r rs aff data, vals first v -> Forall2 follows r rs -> vals (simplifyInfixInequality first r aff data) (chain w v rs).
  Proof.
    intros first v r rs aff data Hv F. unfold simplifyInfixInequality. cbv zeta.
    destruct (find _ SIMPLE_CHAINS) as [full|] eqn:F1.
    { apply find_some in F1 as [Hin E]. apply simple_chain in Hin as (s & -> & Hn & T & N). destruct (all_same _ _ _ E F) as [X Y]. rewrite X, <- (comparison w L) by exact Hn. apply vals_call; [exact T|exact N|constructor; assumption]. }
    destruct (find _ VECTOR_CHAINS) as [full|] eqn:F2.
    { apply find_some in F2 as [Hin E]. apply vector_chain in Hin as (s & -> & Hn & T & N). destruct (all_same _ _ _ E F) as [X Y]. rewrite X, <- (vector_comparison w L) by exact Hn. apply vals_call; [exact T|exact N|]. apply two. apply vals_call; [reflexivity|discriminate|constructor; assumption]. }
    clear F1 F2. assert (G : Forall2 vals (first :: flat_map (fun '(s, a) => [symbol_leaf s no_meta; a]) r) (v :: flat_map (fun p => [name w (fst p); snd p]) rs)).
    { constructor; [exact Hv|]. clear - F. induction F as [|[s1 a] [s2 u] r rs (H1 & H2 & H3) F IH]; [constructor|]. cbn [flat_map fst snd] in *. subst s1. apply is_comparison_text in H2 as [T N]. cbn [List.app]. constructor; [apply vals_name; assumption|]. constructor; [exact H3|exact IH]. }
    destruct aff as [[|]|]; [rewrite <- (vector_inequality w L)|rewrite <- (inequality w L)|rewrite <- (inequality w L)]; (apply vals_call; [reflexivity|discriminate|exact G]).
  Qed.
  Lemma vals_inequality_loop : forall data ts xs ss vs, Forall2 compares ts ss -> length ts = length xs -> Forall2 means xs vs ->
    forall no first v r rs aff a, vals first v -> Forall2 follows r rs -> Forall (fun s => affinity s <> Some no) ss -> aff <> Some no ->
    inequality_loop rec (combine ts xs) first r aff data = Ok a -> vals a (chain w v (rs ++ combine ss vs)).
  Proof.
    intros data ts xs ss vs C. revert xs vs. induction C as [|t s ts ss Ct C IH]; intros xs vs Len M no first v r rs aff a Hv F A Haff E.
    - cbn [combine inequality_loop] in *. injection E as <-. rewrite app_nil_r. apply vals_simplify; assumption.
    - destruct xs as [|x xs]; [discriminate Len|]. inversion M as [|x0 u xs0 vs0 Mx Mr]; subst. apply Forall_cons_iff in A as [A1 A2]. cbn [combine inequality_loop] in E.
      destruct (compares_symbol _ _ Ct) as (Es & Ea & Ic). rewrite Es in E. cbn [rbind] in E. apply rbind_Ok in E as (b & Eb & E). rewrite Ea in E. cbn [rbind] in E.
      assert (F' : Forall2 follows (r ++ [(String.append "System`" s, b)]) (rs ++ [(s, u)])) by (apply Forall2_app; [exact F|constructor; [|constructor]; split; [reflexivity|split; [exact Ic|exact (Hrec _ _ _ Mx Eb)]]]).
      cbn [combine]. replace (rs ++ (s, u) :: combine ss vs0) with ((rs ++ [(s, u)]) ++ combine ss vs0) by (rewrite <- app_assoc; reflexivity).
      destruct (affinity s) as [c|].
      + destruct (match aff with Some b' => Bool.eqb b' (negb c) | None => false end) eqn:Q.
        { exfalso. destruct aff as [b'|]; [|discriminate Q]. apply Bool.eqb_prop in Q. subst b'. destruct c, no; cbn in *; congruence. }
        refine (IH xs vs0 _ Mr no first v _ _ (Some c) a Hv F' A2 A1 E). injection Len; auto.
      + refine (IH xs vs0 _ Mr no first v _ _ aff a Hv F' A2 Haff E). injection Len; auto.
  Qed.
  Lemma vals_comparison : forall ch ts ss x xs v vs data a, separated ch ts (x :: xs) -> Forall2 compares ts ss ->
    Forall (fun s => ~ named VECTOR_COMPARISONS s) ss \/ Forall (fun s => ~ named OTHER_COMPARISONS s) ss -> means x v -> Forall2 means xs vs ->
    abstractInfixInequality rec ch data = Ok a -> vals a (chain w v (combine ss vs)).
  Proof.
    intros ch ts ss x xs v vs data a S C A Mx Ms E. destruct (separated_chunks _ _ _ S) as (x' & r & xs' & -> & X & Ec & Len). injection X as <- <-. unfold abstractInfixInequality in E. apply rbind_Ok in E as (b & Eb & E). rewrite Ec in E. cbn [rbind] in E.
    apply rbind_Ok in E as (ps & Ep & E). assert (ps = combine ts xs).
    { clear - Ep. revert xs ps Ep. induction ts as [|t ts IH]; intros xs ps Ep; [injection Ep as <-; reflexivity|]. destruct xs as [|x xs]; [injection Ep as <-; reflexivity|]. cbn [map combine mapr] in Ep. cbn [rbind] in Ep. apply rbind_Ok in Ep as (q & Eq & Ep). injection Ep as <-. cbn [combine]. f_equal. apply IH. exact Eq. }
    subst ps. change (combine ss vs) with ([] ++ combine ss vs).
    assert (exists no, Forall (fun s => affinity s <> Some no) ss) as [no A'].
    { destruct A as [A|A]; [exists true|exists false]; (eapply Forall_impl; [|exact A]); intros s N X; apply N; [apply affinity_vector|apply affinity_other]; exact X. }
    exact (vals_inequality_loop data ts xs ss vs C Len Ms no b v [] [] None a (Hrec _ _ _ Mx Eb) (Forall2_nil _) A' ltac:(discriminate) E).
  Qed.

  (** ** Brackets *)
  Lemma quirk_plain : forall n s m, ~ own_head s n -> processInfixBinaryAtQuirk o n (bytes s) = Ok m -> m = n.
  Proof.
    intros n s m N E. unfold processInfixBinaryAtQuirk in E. destruct (negb _); [injection E as <-; reflexivity|]. destruct n as [t|h b op body|e ch|k op ch|b ch src|x y src]; try (injection E as <-; reflexivity). destruct k; try (injection E as <-; reflexivity).
    destruct (Z.eqb_spec op BOP_CodeParser_BinaryAt) as [->|_]; [|injection E as <-; reflexivity]. destruct ch as [|a [|t [|b [|? ?]]]]; try discriminate E. apply rbind_Ok in E as (q & Eq & E). destruct q; [|injection E as <-; reflexivity]. exfalso.
    destruct a as [u| | | | |]; try discriminate Eq. destruct (Z.eqb_spec (t_kind u) TK_Symbol) as [K|_]; [|discriminate Eq]. unfold as_str in Eq. destruct (utf8_valid _); [|discriminate Eq]. injection Eq as Eq. apply zlist_eqb_eq in Eq. apply N. exists u, t, b. auto.
  Qed.
  Lemma quirks_plain : forall s xs m, Forall (fun n => ~ own_head s n) xs -> mapr (fun n => processInfixBinaryAtQuirk o n (bytes s)) xs = Ok m -> m = xs.
  Proof. intros s xs m N E. apply mapr_Ok in E. induction E as [|x y xs m E F IH]; [reflexivity|]. apply Forall_cons_iff in N as [N1 N2]. rewrite (quirk_plain _ _ _ N1 E), (IH N2). reflexivity. Qed.

  Hypothesis Hcomma : forall ch ts xs vs a, separated ch ts xs -> Forall (fun n => ~ own_head "Comma" n) xs -> Forall2 means xs vs -> rec (Op KInfix IOP_CodeParser_Comma ch) = Ok a ->
    exists args d, a = call "CodeParser`Comma" args d /\ Forall2 vals args vs.
  Lemma vals_group : forall body vs l, means_inside w body vs -> abstractGroupNode rec body = Ok l -> Forall2 vals l vs.
  Proof.
    intros body vs l M E. unfold abstractGroupNode in E. apply rbind_Ok in E as (ch & Ec & E). apply rbind_Ok in E as (r & Er & E). injection E as <-. inversion M as [t u|t n u v Mn Nc|t cs u ts xs vs0 S Nh F]; subst; cbn [part_span_drop_first_and_last removelast] in Ec; injection Ec as <-.
    - injection Er as <-. constructor.
    - cbn [mapr] in Er. apply rbind_Ok in Er as (a & Ea & Er). injection Er as <-. pose proof (Hrec _ _ _ Mn Ea) as [V1 V2]. cbn [flat_map]. rewrite (plain_select _ V2). apply two. split; assumption.
    - cbn [mapr] in Er. apply rbind_Ok in Er as (a & Ea & Er). injection Er as <-. destruct (Hcomma _ _ _ _ _ S Nh F Ea) as (args & d & -> & Fa). cbn [flat_map]. rewrite app_nil_r. exact Fa.
  Qed.
  Lemma call_issue_free : forall (f : list aissue -> res ast) i ch a, rbind (issue_between i ch) f = Ok a -> exists l, f l = Ok a.
  Proof. intros f i ch a E. apply rbind_Ok in E as (l & _ & E). eauto. Qed.

  Ltac step E x := let H := fresh "E" x in apply rbind_Ok in E as (x & H & E).
  Lemma vals_call_node : forall h m op body v data a, means (Call h m op body) v -> abstract_call_node rec h m op body data = Ok a -> vals a v.
  Proof.
    intros h m op body v data a M E. inversion M as [| | | | | | | | | | | |h0 b0 f vs Mh Mb Ns|h0 t b0 u f vs Mh Mb|h0 b0 f vs Mh Mb| | | | | | | | | | | | | | | | | | | | | | | | | | | |h0 b0 f vs Mh Mb|]; subst; unfold abstract_call_node in E; cbv zeta in E.
    - change (CALLOP_CodeParser_GroupSquare =? CALLOP_CodeParser_GroupSquare) with true in E. cbv iota in E. destruct body as [|x [|inner r]]; try discriminate E.
      assert (D : rbind (issue_between (call_issue h0) (x :: inner :: r)) (fun issues => rbind (rec h0) (fun a => rbind (abstractGroupNode rec (x :: inner :: r)) (fun l => Ok (ACall a l (mk_ameta (Known data) issues))))) = Ok a -> vals a (apply_to w f vs)).
      { intros E0. step E0 is. step E0 b. step E0 l. injection E0 as <-. apply vals_acall; [exact (Hrec _ _ _ Mh Eb)|]. eapply vals_group; eauto. }
      destruct inner as [t0|h1 m1 op1 body1|e1 ch1|k gop ch2|b1 ch1 src1|f1 s1 src1]; try exact (D E). destruct k; try exact (D E). destruct (Z.eqb_spec gop GOP_CodeParser_GroupSquare) as [->|_]; [|exact (D E)].
      destruct r as [|y [|? ?]]; try discriminate E. exfalso. apply (Ns _ _ _ eq_refl). exists ch2. reflexivity.
    - change (CALLOP_CodeParser_GroupSquare =? CALLOP_CodeParser_GroupSquare) with true in E. change (GOP_CodeParser_GroupSquare =? GOP_CodeParser_GroupSquare) with true in E. cbv iota in E. step E is. step E b. step E l. injection E as <-.
      apply vals_call; [reflexivity|discriminate|]. constructor; [exact (Hrec _ _ _ Mh Eb)|]. eapply vals_group; eauto.
    - change (CALLOP_CodeParser_GroupDoubleBracket =? CALLOP_CodeParser_GroupSquare) with false in E. change (CALLOP_CodeParser_GroupDoubleBracket =? CALLOP_CodeParser_GroupTypeSpecifier) with false in E. cbv iota in E. destruct body as [|x r]; [discriminate E|]. step E is. step E b. step E l. injection E as <-.
      apply vals_call; [reflexivity|discriminate|]. constructor; [exact (Hrec _ _ _ Mh Eb)|]. eapply vals_group; eauto.
    - change (CALLOP_CodeParser_GroupTypeSpecifier =? CALLOP_CodeParser_GroupSquare) with false in E. change (CALLOP_CodeParser_GroupTypeSpecifier =? CALLOP_CodeParser_GroupTypeSpecifier) with true in E. cbv iota in E. step E s. step E b. step E l. injection E as <-.
      apply vals_acall; [apply vals_call; [reflexivity|discriminate|apply two; exact (Hrec _ _ _ Mh Eb)]|]. eapply vals_group; eauto.
  Qed.

  (** ** Words and primes *)
  Lemma file_word_value : forall s u, file_word s u -> escape_file_string o s = u.
  Proof.
    intros s u H. destruct H as [s|s B]; [reflexivity|]. unfold escape_file_string. destruct s as [|c s]; [apply Hfmt; exact B|]. pose proof B as B'. unfold bare in B'; apply Forall_cons_iff in B' as [(Hc & N1 & N2) _].
    rewrite <- (Hfmt _ B). clear - N1. destruct c as [|c|c]; try reflexivity. do 6 (destruct c as [c|c|]; try reflexivity). exfalso. apply N1. reflexivity.
  Qed.
  Lemma word_value : forall s u, word s u -> escape_symbol_string o s = u.
  Proof.
    intros s u H. destruct H as [s u H|s]; [|reflexivity]. destruct H as [s|s B]; [reflexivity|]. unfold escape_symbol_string. destruct s as [|c s]; [apply Hfmt; exact B|]. pose proof B as B'. unfold bare in B'; apply Forall_cons_iff in B' as [(Hc & N1 & N2) _].
    rewrite <- (Hfmt _ B). clear - N1 N2. destruct c as [|c|c]; try reflexivity. repeat (destruct c as [c|c|]; try reflexivity); exfalso; first [apply N2; reflexivity|apply N1; reflexivity].
  Qed.
  Lemma primes_value : forall m k n, primed m k n -> forall v, means n v ->
    forall order a, derivativeOrderAndAbstractedBody rec m = Ok (order, a) -> order = k /\ vals a v.
  Proof.
    intros m k n H. induction H as [n t K N|m k n t H IH K]; intros v M order a E; cbn [derivativeOrderAndAbstractedBody] in E; change (POSTOP_Derivative =? POSTOP_Derivative) with true in E; cbv iota in E.
    - apply rbind_Ok in E as ([o1 b] & E1 & E). apply Ok_inj in E. injection E as <- <-.
      assert (D : rbind (rec n) (fun a => Ok (0, a)) = Ok (o1, b)).
      { destruct n as [| | |k op ch| |]; try exact E1. destruct k; try exact E1. cbn [derivativeOrderAndAbstractedBody] in E1. destruct (Z.eqb_spec op POSTOP_Derivative) as [->|_]; [exfalso; exact (N ch eq_refl)|exact E1]. }
      apply rbind_Ok in D as (c & Ec & D). apply Ok_inj in D. injection D as <- <-. split; [reflexivity|exact (Hrec _ _ _ M Ec)].
    - apply rbind_Ok in E as ([o1 b] & E1 & E). apply Ok_inj in E. injection E as <- <-. destruct (IH v M _ _ E1) as [-> V]. split; [lia|exact V].
  Qed.
  Lemma primed_positive : forall m k n, primed m k n -> 0 < k.  Proof. intros m k n H. induction H; lia. Qed.
  Lemma vals_derivative : forall ch k n v data a, primed (Op KPostfix POSTOP_Derivative ch) k n -> means n v -> abstract_postfix rec POSTOP_Derivative ch data = Ok a ->
    vals a (apply_to w (app w "Derivative" [integer w k]) [v]).
  Proof.
    intros ch k n v data a P M E. pose proof (primed_positive _ _ _ P) as Hk. unfold abstract_postfix in E.
    assert (T : exists m t, ch = [m; Tok t] /\ t_kind t = TK_SingleQuote) by (inversion P; subst; eauto). destruct T as (m & t & -> & K).
    change (POSTOP_Derivative =? POSTOP_HermitianConjugate) with false in E. change (POSTOP_Derivative =? POSTOP_Derivative) with true in E. cbv iota zeta in E. rewrite K in E. change (TK_SingleQuote =? TK_SingleQuote) with true in E. cbv iota in E.
    apply rbind_Ok in E as ([o1 b] & E1 & E). apply Ok_inj in E. subst a.
    assert (X : derivativeOrderAndAbstractedBody rec (Op KPostfix POSTOP_Derivative [m; Tok t]) = Ok (o1 + 1, b)).
    { cbn [derivativeOrderAndAbstractedBody]. change (POSTOP_Derivative =? POSTOP_Derivative) with true. cbv iota. rewrite E1. reflexivity. }
    destruct (primes_value _ _ _ P v M _ _ X) as [<- V]. apply vals_acall; [|apply two; exact V]. apply vals_call; [reflexivity|discriminate|]. apply two, vals_integer. lia.
  Qed.
  Lemma messages_value : forall ws us args, Forall2 (fun t u => t_kind t = TK_String /\ word (t_text t) u) ws us ->
    mapr (fun n => match n with Tok t => if t_kind t =? TK_String then rbind (as_str t) (fun s => Ok (string_leaf (escape_symbol_string o s) (from_src (t_src t)))) else rec n | _ => rec n end) (map Tok ws) = Ok args ->
    Forall2 vals args (map (text w) us).
  Proof.
    intros ws us args F E. apply mapr_Ok in E. revert args E. induction F as [|t u ws us [K W] F IH]; intros args E; inversion E as [|n a l l' Ea El]; subst; constructor; [|apply IH; exact El].
    rewrite K in Ea. change (TK_String =? TK_String) with true in Ea. cbv iota in Ea. apply rbind_Ok in Ea as (s & Es & Ea). unfold as_str in Es. destruct (utf8_valid _); [|discriminate Es]. apply Ok_inj in Es. subst s. apply Ok_inj in Ea. subst a. rewrite (word_value _ _ W). apply vals_text.
  Qed.

  (** ** Nodes *)
  Ltac other op c := let X := fresh in destruct (Z.eqb_spec op c) as [X|_]; [exfalso; match goal with N : ~ In _ _ |- _ => apply N; rewrite X; cbn [In]; auto 12 end|].
  Ltac knownin E := cbv zeta in E; repeat match type of E with context [?a =? ?b] => first [progress change (a =? b) with true in E | progress change (a =? b) with false in E] end; cbv iota in E.
  Ltac recs := repeat match goal with M : means ?n ?v, E : rec ?n = Ok ?a |- _ => let H := fresh "V" in pose proof (Hrec n v a M E) as H; clear E end.
  Ltac done := first [assumption | apply vals_one | (apply vals_call; [reflexivity|discriminate|]); repeat (constructor; [done|]); constructor | repeat (constructor; [done|]); constructor].
  Ltac vcall := apply vals_call; [reflexivity|discriminate|]; repeat (constructor; [done|]); constructor.
  Lemma vals_compound : forall op ch v data a, means (Op KCompound op ch) v -> abstract_compound o rec op ch data = Ok a -> vals a v.
  Proof.
    intros op ch v data a M E. unfold abstract_compound in E. inversion M as [| | | | | | | | | | | | | | | | | | | | | | | | | | | | | | | |op0 t n v0 Hop Mn|op0 x y vx vy Hop Mx My|x t vx Mx|op0 t n Hop Kn|t n u Kn W| | | | | | |]; subst.
    - destruct (zin op [COP_Blank; COP_BlankSequence; COP_BlankNullSequence]) eqn:Z; [|apply zin_In in Hop; rewrite Hop in Z; discriminate Z]. step E b. injection E as <-. recs. apply vals_call; [|apply operator_safe; cbn; auto 12|apply two; assumption]. apply (operator_text COP_TO). cbn; auto 12.
    - assert (Z : zin op [COP_Blank; COP_BlankSequence; COP_BlankNullSequence] = false) by (destruct Hop as [<-|[<-|[<-|[]]]]; reflexivity). rewrite Z in E. apply zin_In in Hop. rewrite Hop in E. step E b. step E c. injection E as <-. recs. vcall.
    - knownin E. change (zin COP_CodeParser_PatternOptionalDefault [COP_Blank; COP_BlankSequence; COP_BlankNullSequence]) with false in E. change (zin COP_CodeParser_PatternOptionalDefault [COP_CodeParser_PatternBlank; COP_CodeParser_PatternBlankSequence; COP_CodeParser_PatternBlankNullSequence]) with false in E. cbv iota in E.
      destruct (t_kind t =? TK_UnderDot); [|discriminate E]. step E b. injection E as <-. recs. vcall.
    - assert (N : means (Tok n) (number w TK_Integer (t_text n))) by (rewrite <- Kn; apply means_number; auto). destruct Hop as [<-|[<-|[<-|[]]]].
      + unfold zin, existsb in E. knownin E. cbn [orb] in E. cbv iota in E. rewrite Kn in E. knownin E. step E b. injection E as <-. pose proof (vals_token _ _ _ N Eb). vcall.
      + unfold zin, existsb in E. knownin E. cbn [orb] in E. cbv iota in E. rewrite Kn in E. knownin E. step E b. injection E as <-. recs. vcall.
      + unfold zin, existsb in E. knownin E. cbn [orb] in E. cbv iota in E. rewrite Kn in E. knownin E. step E b. injection E as <-. recs. vcall.
    - unfold zin, existsb in E. knownin E. cbn [orb] in E. cbv iota in E. assert (X : rbind (as_str n) (fun s => Ok (call "System`Slot" [string_leaf (escape_symbol_string o s) (from_src (t_src n))] (from_src data))) = Ok a) by (destruct Kn as [Kn|Kn]; rewrite Kn in E; exact E).
      clear E. step X s. unfold as_str in Es. destruct (utf8_valid _); [|discriminate Es]. apply Ok_inj in Es. subst s. apply Ok_inj in X. subst a. rewrite (word_value _ _ W). apply vals_call; [reflexivity|discriminate|apply two, vals_text].
  Qed.
  Lemma op_text : forall k op, symbol_text (op_symbol k op) = bytes (operator (match k with KPrefix => PREOP_TO | KInfix => IOP_TO | KPostfix => POSTOP_TO | KBinary => BOP_TO | KTernary => TOP_TO | KPrefixBinary => PBOP_TO | KCompound => COP_TO | KGroup | KGroupMissingCloser | KGroupMissingOpener => GOP_TO end) op).
  Proof. intros k op. unfold op_symbol. apply operator_text. destruct k; cbn; auto 12. Qed.
  Ltac opcall := apply vals_call; [apply op_text|apply operator_safe; cbn; auto 12|].
  Lemma vals_prefix : forall op ch v data a, means (Op KPrefix op ch) v -> abstract_prefix o rec op ch data = Ok a -> vals a v.
  Proof.
    intros op ch v data a M E. unfold abstract_prefix in E. inversion M; subst.
    - knownin E. step E g. eapply vals_negated; [|exact E]. eapply gval_negate; eauto.
    - knownin E. eapply vals_prefix_plus; eauto.
    - other op PREOP_Minus. other op PREOP_Plus. other op PREOP_CodeParser_PrefixNot2. other op PREOP_CodeParser_PrefixLinearSyntaxBang. other op PREOP_Get. step E q1. injection E as <-. recs. opcall. apply two. assumption.
    - knownin E. unfold abstractNot2 in E. step E s. step E q1. injection E as <-. recs. vcall.
    - knownin E. match goal with K : t_kind ?n = TK_String, W : file_word (t_text ?n) _ |- _ => rewrite K in E; pose proof (file_word_value _ _ W) as We end. change (TK_String =? TK_String) with true in E. cbv iota in E.
      step E s. unfold as_str in Es. destruct (utf8_valid _); [|discriminate Es]. apply Ok_inj in Es. subst s. apply Ok_inj in E. subst a. rewrite We. apply vals_call; [reflexivity|discriminate|apply two, vals_text].
  Qed.
  Lemma vals_postfix : forall op ch v data a, means (Op KPostfix op ch) v -> abstract_postfix rec op ch data = Ok a -> vals a v.
  Proof.
    intros op ch v data a M E. inversion M; subst; [unfold abstract_postfix in E|unfold abstract_postfix in E|].
    - other op POSTOP_HermitianConjugate. other op POSTOP_Derivative. step E q1. injection E as <-. recs. opcall. apply two. assumption.
    - knownin E. step E q1. injection E as <-. recs. vcall.
    - eapply vals_derivative; eauto.
  Qed.
  Lemma vals_binary : forall op ch v data a, means (Op KBinary op ch) v -> abstract_binary o rec op ch data = Ok a -> vals a v.
  Proof.
    intros op ch v data a M E. unfold abstract_binary in E. inversion M; subst.
    - knownin E. eapply vals_divide; eauto.
    - knownin E. change (zin BOP_Power [BOP_Put; BOP_PutAppend]) with false in E. cbv iota in E. step E q1. step E q2. cbn [andb] in E. injection E as <-. recs. rewrite <- (power_args w L). vcall.
    - knownin E. step E q1. step E q2. injection E as <-. recs. apply vals_acall; done.
    - knownin E. step E q1. step E q2. injection E as <-. recs. apply vals_acall; done.
    - other op BOP_Divide. other op BOP_CodeParser_BinaryAt. destruct (Z.eqb_spec op BOP_MapApply) as [->|_].
      { step E q1. step E q2. recs. change (operator BOP_TO BOP_MapApply) with "MapApply". destruct (q_old_at_at_at o); injection E as <-; [rewrite <- (map_apply w L)|]; vcall. }
      other op BOP_CodeParser_BinarySlashSlash. destruct (zin op [BOP_Put; BOP_PutAppend]) eqn:Z; [exfalso; apply zin_In in Z; match goal with N : ~ In _ _ |- _ => apply N; destruct Z as [<-|[<-|[]]]; cbn; auto 12 end|].
      other op BOP_Unset. step E q1. step E q2. other op BOP_PatternTest. cbn [andb] in E. injection E as <-. recs. opcall. done.
    - knownin E. change (zin BOP_Unset [BOP_Put; BOP_PutAppend]) with false in E. cbv iota in E. destruct (leaf_of TK_Equal t && leaf_of TK_Dot b); [|discriminate E]. step E q2. injection E as <-. recs. vcall.
    - match goal with K : t_kind ?n = TK_String, W : file_word (t_text ?n) _, Hop : In op _ |- _ => pose proof (file_word_value _ _ W) as We; pose proof K as Kn; pose proof Hop as Ho; pose proof Hop as Hz; apply zin_In in Hz; rewrite Hz in E end.
      assert (Z : (op =? BOP_Divide) = false /\ (op =? BOP_CodeParser_BinaryAt) = false /\ (op =? BOP_MapApply) = false /\ (op =? BOP_CodeParser_BinarySlashSlash) = false) by (destruct Ho as [<-|[<-|[]]]; repeat split; reflexivity).
      destruct Z as (-> & -> & -> & ->) in E. rewrite Kn in E. change (TK_String =? TK_String) with true in E. cbv iota in E. step E s. unfold as_str in Es. destruct (utf8_valid _); [|discriminate Es]. apply Ok_inj in Es. subst s. step E q2. apply Ok_inj in E. subst a. rewrite We. recs. opcall. constructor; [done|]. apply two, vals_text.
    - knownin E. change (zin BOP_PatternTest [BOP_Put; BOP_PutAppend]) with false in E. cbv iota in E. step E q1. step E q2. cbn [andb] in E.
      match goal with N : forall ch, ?a <> Op KBinary BOP_PatternTest ch |- _ => replace (match a with Op KBinary op2 _ => op2 =? BOP_PatternTest | _ => false end) with false in E end; [injection E as <-; recs; vcall|].
      symmetry. match goal with N : forall ch, ?a <> Op KBinary BOP_PatternTest ch |- _ => destruct a as [| | |kd op2 cs| |]; try reflexivity; destruct kd; try reflexivity; destruct (Z.eqb_spec op2 BOP_PatternTest) as [->|_]; [exfalso; exact (N cs eq_refl)|reflexivity] end.
  Qed.
  Lemma Forall2_reversed : forall A B (R : A -> B -> Prop) l m, Forall2 R l m -> Forall2 R (rev l) (rev m).
  Proof. intros A B R l m H. induction H as [|x y l m Hx H IH]; [constructor|]. cbn [rev]. apply Forall2_app; [exact IH|]. constructor; [exact Hx|constructor]. Qed.
  Lemma vals_infix : forall op ch v data a, means (Op KInfix op ch) v -> abstract_infix o rec op ch data = Ok a -> vals a v.
  Proof.
    intros op ch v data a M E. unfold abstract_infix in E. inversion M as [| | | | | | |ch0 ts x xs v0 vs S K Mx Ms|ch0 ts xs vs S Ms| | |ch0 ts ss x xs v0 vs S K Nv Mx Ms| | | | | | | | | | | | | |op0 ch0 ts xs vs N S Nh Ms|ch0 ts xs vs S Nh Ms|ch0 ts xs vs S Ms| | | | | | | | | | | |ch0 ts x ws v0 us S Mx Ws| | | |]; subst.
    - knownin E. eapply vals_plus; eauto.
    - knownin E. step E l. apply span_even in El. subst l. rewrite (separated_evens _ _ _ S) in E. destruct (vals_times _ _ _ _ Ms E) as (args & us & -> & F & <-). rewrite <- (times_args w L). apply vals_call; [reflexivity|discriminate|exact F].
    - knownin E. eapply vals_comparison; eauto.
    - other op IOP_CodeParser_InfixInequality. other op IOP_Plus. other op IOP_Times. other op IOP_Divisible. other op IOP_CompoundExpression. other op IOP_MessageName. other op IOP_CodeParser_InfixTilde. rewrite (separated_odd _ _ _ S) in E.
      step E l. apply span_even in El. subst l. rewrite (separated_evens _ _ _ S) in E. step E l. assert (l = xs). { destruct (zin op [IOP_SameQ; IOP_UnsameQ]); [injection El as <-; reflexivity|]. rewrite quirk_name in El. eapply quirks_plain; eauto. intros X. apply N. cbn [In] in *. intuition auto. }
      subst l. step E args. injection E as <-. apply vals_call; [apply op_text|apply infix_safe; intros ->; apply N; cbn [In]; auto 12|]. eapply rec_list; eauto.
    - knownin E. step E l. apply span_even in El. subst l. rewrite (separated_evens _ _ _ S) in E. step E l. apply (quirks_plain "Divisible") in El; [|exact Nh]. subst l. step E args. injection E as <-. apply vals_call; [reflexivity|discriminate|]. eapply rec_list; [|exact Eargs]. apply Forall2_reversed. exact Ms.
    - knownin E. step E l. apply span_even in El. subst l. rewrite (separated_evens _ _ _ S) in E. step E args. injection E as <-. apply vals_call; [reflexivity|discriminate|]. apply mapr_Ok in Eargs. clear - Ms Eargs Hrec L. revert args Eargs. induction Ms as [|n v xs vs M Ms IH]; intros args F; inversion F as [|n0 a0 l0 l1 Ea F0]; subst; constructor; auto.
      destruct M as [M|(t & -> & K & ->)]; [|rewrite K in Ea; change (TK_Fake_ImplicitNull =? TK_Fake_ImplicitNull) with true in Ea; injection Ea as <-; apply vals_name; [reflexivity|discriminate]].
      destruct n as [t| | | | |]; try exact (Hrec _ _ _ M Ea). destruct (Z.eqb_spec (t_kind t) TK_Fake_ImplicitNull) as [K|_]; [|exact (Hrec _ _ _ M Ea)]. exfalso. inversion M as [t0 K0|t0 K0|t0 K0|t0 v0 S| | | | | | | | | | | | | | | | | | | | | | | | | | | | | | | | | |t0 n K0| | | | | |]; subst; [rewrite K in K0; discriminate K0|destruct K0 as [K0|K0]; rewrite K in K0; discriminate K0|rewrite K in K0; discriminate K0|rewrite K in S; discriminate S|rewrite K in K0; discriminate K0].
    - knownin E. step E l. apply span_even in El. subst l. rewrite (separated_evens _ _ _ S) in E. unfold abstractMessageName in E. cbv zeta in E. step E q1. step E args. apply Ok_inj in E. subst a. recs. apply vals_call; [reflexivity|discriminate|]. constructor; [assumption|]. exact (messages_value _ _ _ Ws Eargs).
  Qed.
  Lemma comma_args : forall ch ts xs vs data a, separated ch ts xs -> Forall (fun n => ~ own_head "Comma" n) xs -> Forall2 means xs vs -> abstract_infix o rec IOP_CodeParser_Comma ch data = Ok a ->
    exists args d, a = call "CodeParser`Comma" args d /\ Forall2 vals args vs.
  Proof.
    intros ch ts xs vs data a S Nh Ms E. unfold abstract_infix in E. knownin E. rewrite (separated_odd _ _ _ S) in E. step E l. apply span_even in El. subst l. rewrite (separated_evens _ _ _ S) in E. step E l. change (zin IOP_CodeParser_Comma [IOP_SameQ; IOP_UnsameQ]) with false in El. cbv iota in El.
    change (symbol_name (op_symbol KInfix IOP_CodeParser_Comma)) with (bytes "Comma") in El. apply quirks_plain in El; [|exact Nh]. subst l. step E args. injection E as <-. exists args, (from_src data). split; [reflexivity|]. eapply rec_list; eauto.
  Qed.
  Lemma vals_ternary : forall op ch v data a, means (Op KTernary op ch) v -> abstract_ternary rec op ch data = Ok a -> vals a v.
  Proof.
    intros op ch v data a M E. unfold abstract_ternary in E. inversion M as [| | | | | | | | | | | | | | | | |x0 t m u y0 x f y Mx Mf My Nc| | | | | | | | | | |op0 x0 t m u y0 x y z Hop Mx My Mz|x0 t m u y0 x y Mx My|x0 t m u y0 x y z Mx My Mz| | | | | | | | | | | | |]; subst.
    - knownin E. step E q1. step E q2. step E q3. replace (match m with Op KInfix iop _ => iop =? IOP_CodeParser_Comma | _ => false end) with false in E; [injection E as <-; recs; apply vals_acall; done|].
      symmetry. destruct m as [| | |k iop cs| |]; try reflexivity. destruct k; try reflexivity. destruct (Z.eqb_spec iop IOP_CodeParser_Comma) as [->|_]; [exfalso; apply Nc; exists cs; reflexivity|reflexivity].
    - assert (Z : (op =? TOP_CodeParser_TernaryTilde) = false /\ (op =? TOP_TagUnset) = false /\ (op =? TOP_CodeParser_TernaryOptionalPattern) = false) by (destruct Hop as [<-|[<-|[<-|[]]]]; repeat split; reflexivity). destruct Z as (-> & -> & ->) in E. step E q1. step E q2. step E q3. injection E as <-. recs. opcall. done.
    - knownin E. destruct (leaf_of TK_Equal u && leaf_of TK_Dot y0); [|discriminate E]. step E q1. step E q2. injection E as <-. recs. vcall.
    - knownin E. step E q1. step E q2. step E q3. injection E as <-. recs. vcall.
  Qed.
  Lemma vals_prefix_binary : forall op ch v data a, means (Op KPrefixBinary op ch) v -> abstract_prefix_binary rec op ch data = Ok a -> vals a v.
  Proof.
    intros op ch v data a M E. unfold abstract_prefix_binary in E. inversion M as [| | | | | | | | | | | | | | | | | | | | | | | | | | | | | | |op0 t x0 dop u y0 x y Hop Mx My| | | | | | | | | | | |]; subst. apply zin_In in Hop. rewrite Hop in E. step E q1. step E q2. injection E as <-. recs. opcall. done.
  Qed.
  Lemma vals_group_node : forall op ch v data a, means (Op KGroup op ch) v -> abstract_group o rec op ch data = Ok a -> vals a v.
  Proof.
    intros op ch v data a M E. unfold abstract_group in E. inversion M as [| | | |t n u v0 Nc Mn| | | | | | | | | | | | | |op0 body vs N Mi| | | | | | | | | | | | | | | | | | | | | | | | |]; subst.
    - knownin E. cbn [abstract_paren] in E. destruct n as [| | |k iop cs| |]; try exact (Hrec _ _ _ Mn E). destruct k; try exact (Hrec _ _ _ Mn E). destruct (Z.eqb_spec iop IOP_CodeParser_Comma) as [->|_]; [exfalso; apply Nc; exists cs; reflexivity|exact (Hrec _ _ _ Mn E)].
    - other op GOP_CodeParser_GroupParen. other op GOP_CodeParser_GroupSquare. other op GOP_CodeParser_GroupTypeSpecifier. other op GOP_CodeParser_GroupDoubleBracket. step E l. injection E as <-. opcall. eapply vals_group; eauto.
  Qed.
  Lemma vals_node : forall n v data a, means n v -> abstract_node o rec n data = Ok a -> vals a v.
  Proof.
    intros n v data a M E. destruct n as [t|h b op body|e ch|k op ch|b ch src|x y src]; try (inversion M; fail).
    - exact (vals_token _ _ _ M E).
    - exact (vals_call_node _ _ _ _ _ _ _ M E).
    - destruct k; cbn [abstract_node] in E; try (inversion M; fail).
      + exact (vals_prefix _ _ _ _ _ M E).
      + exact (vals_infix _ _ _ _ _ M E).
      + exact (vals_postfix _ _ _ _ _ M E).
      + exact (vals_binary _ _ _ _ _ M E).
      + exact (vals_ternary _ _ _ _ _ M E).
      + exact (vals_prefix_binary _ _ _ _ _ M E).
      + exact (vals_compound _ _ _ _ _ M E).
      + exact (vals_group_node _ _ _ _ _ M E).
  Qed.
End Value.

Lemma abstract_vals : forall w, lawful w -> forall o, (forall s, bare s -> a_fmt o s = 34 :: s ++ [34]) -> forall k,
  (forall n v a, means w n v -> abstract_ o k n = Ok a -> vals w a v) /\
  (forall ch ts xs vs a, separated ch ts xs -> Forall (fun n => ~ own_head "Comma" n) xs -> Forall2 (means w) xs vs -> abstract_ o k (Op KInfix IOP_CodeParser_Comma ch) = Ok a ->
    exists args d, a = call "CodeParser`Comma" args d /\ Forall2 (vals w) args vs).
Proof.
  intros w L o Q k. induction k as [|k [IH1 IH2]]; [split; intros; discriminate|]. split.
  - intros n v a M E. cbn [abstract_] in E. apply rbind_Ok in E as (data & _ & E). apply rbind_Ok in E as (b & Eb & E). destruct (a_dbg o && _); [discriminate E|]. injection E as <-. exact (vals_node w L o Q _ IH1 IH2 _ _ _ _ M Eb).
  - intros ch ts xs vs a S N F E. cbn [abstract_] in E. apply rbind_Ok in E as (data & _ & E). apply rbind_Ok in E as (b & Eb & E). destruct (a_dbg o && _); [discriminate E|]. injection E as <-. cbn [abstract_node] in Eb. exact (comma_args w o _ IH1 _ _ _ _ _ _ S N F Eb).
Qed.
Lemma abstract_value : forall w, lawful w -> forall o, (forall s, bare s -> a_fmt o s = 34 :: s ++ [34]) -> forall n v a, means w n v -> abstract_cst o n = Ok a -> denotes w a v.
Proof. intros w L o Q n v a M E. exact (proj1 (proj1 (abstract_vals w L o Q _) _ _ _ M E)). Qed.

(** An abstract tree has one value. *)
Fixpoint ast_size (a : ast) : nat := match a with ACall h l _ => S (ast_size h + fold_right (fun x k => (ast_size x + k)%nat) 0%nat l) | _ => 1%nat end.
Lemma denotes_one : forall w a v v', denotes w a v -> denotes w a v' -> v = v'.
Proof.
  intros w. assert (A : forall k a v v', (ast_size a < k)%nat -> denotes w a v -> denotes w a v' -> v = v').
  { induction k as [|k IH]; [lia|]. intros a v v' Hs D D'. destruct D as [s d|kd s d K|s d|h l d f vs Dh Dl].
    - inversion D' as [|k0 s0 d0 K0| |]; [reflexivity|destruct K0 as [K0|K0]; discriminate K0].
    - inversion D' as [s0 d0 E1|k0 s0 d0 K0|s0 d0 E1|]; subst; try reflexivity; destruct K as [K|K]; discriminate K.
    - inversion D' as [|k0 s0 d0 K0| |]; [destruct K0 as [K0|K0]; discriminate K0|reflexivity].
    - inversion D' as [| | |h0 l0 d0 f' vs' Dh' Dl']; subst. cbn [ast_size] in Hs. assert (Eh : f = f') by (eapply (IH h); eauto; lia). subst f'. f_equal.
      assert (Hb : (fold_right (fun x k => (ast_size x + k)%nat) 0%nat l < k)%nat) by lia. clear - IH Hb Dl Dl'. revert vs' Dl'. induction Dl as [|a v l vs Ha F IHl]; intros us F'; inversion F' as [|a0 v' l0 us0 Ha' F0']; subst; [reflexivity|].
      cbn [fold_right] in Hb. f_equal; [eapply (IH a); eauto; lia|apply IHl; [lia|exact F0']]. }
  intros a v v'. apply (A (S (ast_size a))). lia.
Qed.
