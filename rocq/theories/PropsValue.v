(** C56: abstraction keeps the meaning of expressions. *)
From Coq Require Import String.
From Coq Require Import ZArith List Bool Lia.
From Verif Require Import Base Source LongNames GenTokenKind GenOps GenSymbols TokenKind Tokenizer SpecText SpecReader SpecTokenizer Cst SpecCst CstProofs Parser SpecParser SpecParse PropsReader
  Ast Abstract AbstractProofs AbstractValue PropsAbstract SpecValue.
Import ListNotations.
Local Open Scope string_scope.
Local Open Scope list_scope.
Local Open Scope Z_scope.

(** The abstract tree of an expression has the value that the expression has as it was written,
    whatever names, numbers and functions stand for, as long as Plus adds, Times multiplies,
    and so on; under all settings of the quirks.  Rust's debug output is only used for words
    without quotation marks, and is taken to put printable ASCII text in quotation marks. *)
Theorem C56_value : forall w, lawful w -> forall a cs l asts, (forall s, bare s -> a_fmt a s = 34 :: s ++ [34]) -> aggregate_cst_seq cs = Ok l -> to_ast a cs = Ok asts ->
  Forall2 (fun n t => forall v, means w n v -> denotes w t v) l asts.
Proof.
  intros w L a cs l asts Q A E. unfold to_ast in E. rewrite A in E. cbn [rbind] in E. apply mapr_Ok in E. clear - L Q E. induction E as [|n t l asts E F IH]; constructor; [|exact IH]. intros v M. exact (abstract_value w L a Q n v t M E).
Qed.
Print Assumptions C56_value.
(** An abstract tree has one value. *)
Theorem C56_one_value : forall w t v v', denotes w t v -> denotes w t v' -> v = v'.
Proof. exact denotes_one. Qed.
Print Assumptions C56_one_value.
(** The quirks do not change the value. *)
Theorem C56_quirks : forall w, lawful w -> forall a a' n v t t' u u', (forall s, bare s -> a_fmt a s = 34 :: s ++ [34] /\ a_fmt a' s = 34 :: s ++ [34]) -> means w n v -> abstract_cst a n = Ok t -> abstract_cst a' n = Ok t' ->
  denotes w t u -> denotes w t' u' -> u = u'.
Proof.
  intros w L a a' n v t t' u u' Q M E E' D D'. rewrite (denotes_one _ _ _ _ D (abstract_value w L _ (fun s B => proj1 (Q s B)) _ _ _ M E)). exact (denotes_one _ _ _ _ (abstract_value w L _ (fun s B => proj2 (Q s B)) _ _ _ M E') D').
Qed.
Print Assumptions C56_quirks.

(** ** A world

    A value is an integer with a list of values attached to it; sums and products join the
    lists.  A name is the number that its bytes spell.  A function that is not known gives its
    own number and the list of its arguments. *)
Inductive value := Value (n : Z) (items : list value).
Definition num (v : value) : Z := match v with Value n _ => n end.
Definition items (v : value) : list value := match v with Value _ l => l end.
Definition code (s : list Z) : Z := fold_left (fun a c => a * 256 + c) s 1.
Fixpoint read (s : list Z) (acc : Z) : Z := match s with [] => acc | c :: r => if c =? 45 then - read r 0 else read r (acc * 10 + (c - 48)) end.
Definition add (x y : value) : value := Value (num x + num y) (items x ++ items y).
Definition mul (x y : value) : value := Value (num x * num y) (items x ++ items y).
Definition neg (x : value) : value := Value (- num x) (items x).
Definition pow (x y : value) : value := Value (num x ^ num y) (items x ++ items y).
Definition is_code (c : Z) (s : string) : bool := c =? code (bytes s).
Definition holds (c : Z) (x y : Z) : bool :=
  if is_code c "Equal" then x =? y else if is_code c "Unequal" then negb (x =? y) else if is_code c "Less" then x <? y else if is_code c "Greater" then y <? x
  else if is_code c "LessEqual" then x <=? y else if is_code c "GreaterEqual" then y <=? x else true.
Fixpoint walk (a : value) (l : list (Z * value)) : bool := match l with [] => true | (c, b) :: r => holds c (num a) (num b) && walk b r end.
Definition truth (b : bool) : value := Value (if b then 1 else 0) [].
Definition chained (a : value) (l : list (Z * value)) : value := truth (walk a l).
Fixpoint pairs (l : list value) : list (Z * value) := match l with r :: b :: l => (num r, b) :: pairs l | _ => [] end.
Inductive action := Sum | Product | Raise | Compare | CompareList | CompareMixed | Items | ApplyAt.
Definition ACTIONS : list (Z * action) :=
  [(code (bytes "Plus"), Sum); (code (bytes "Times"), Product); (code (bytes "Power"), Raise); (code (bytes "Inequality"), CompareMixed); (code (bytes "Developer`VectorInequality"), CompareMixed);
   (code (bytes "List"), Items); (code (bytes "Apply"), ApplyAt)] ++
  map (fun p => (code (bytes (fst p)), Compare)) (PLAIN_COMPARISONS ++ OTHER_COMPARISONS) ++ map (fun p => (code (bytes (fst p)), CompareList)) VECTOR_COMPARISONS.
Definition applied (f : value) (l : list value) : value :=
  let c := num f in
  match assoc c ACTIONS with
  | None => Value c l
  | Some Sum => fold_right add (Value 0 []) l
  | Some Product => fold_right mul (Value 1 []) l
  | Some Raise => match l with [a; b] => pow a b | _ => Value c l end
  | Some Compare => match l with a :: r => chained a (map (fun b => (c, b)) r) | [] => Value c l end
  | Some CompareList => match l with [Value _ (a :: r)] => chained a (map (fun b => (c, b)) r) | _ => Value c l end
  | Some CompareMixed => match l with a :: r => chained a (pairs r) | [] => Value c l end
  | Some Items => Value 0 l
  | Some ApplyAt => match l with [f; x; _] => Value (code (bytes "MapApply")) [f; x] | _ => Value c l end
  end.
Definition Integers : world := mk_world value (fun s => Value (code s) []) (fun _ s => Value (read s 0) []) (fun n => Value n []) (fun s => Value (code s) []) applied
  (Value 0 []) (Value 1 []) add mul neg pow (fun a l => chained a (map (fun p => (code (bytes (fst p)), snd p)) l)).

Lemma value_eq : forall x y, num x = num y -> items x = items y -> x = y.
Proof. intros [a l] [b m]; cbn [num items]; intros -> ->; reflexivity. Qed.
Definition right_action (k : action) (p : string * list Z) : bool := if code (bytes (fst p)) =? code (bytes (fst p)) then match assoc (code (bytes (fst p))) ACTIONS, k with Some Compare, Compare => true | Some CompareList, CompareList => true | _, _ => false end else false.
Lemma compare_actions : forallb (right_action Compare) (PLAIN_COMPARISONS ++ OTHER_COMPARISONS) = true /\ forallb (right_action CompareList) VECTOR_COMPARISONS = true.
Proof. split; vm_compute; reflexivity. Qed.
Lemma walk_pairs : forall l, pairs (flat_map (fun p : string * value => [Value (code (bytes (fst p))) []; snd p]) l) = map (fun p => (code (bytes (fst p)), snd p)) l.
Proof. intros l. induction l as [|[s v] l IH]; [reflexivity|]. cbn [flat_map List.app pairs map num fst snd]. rewrite IH. reflexivity. Qed.
Lemma applied_action : forall s k, assoc (code (bytes s)) ACTIONS = Some k -> forall l, app Integers s l = match k with
  | Sum => fold_right add (Value 0 []) l
  | Product => fold_right mul (Value 1 []) l
  | Raise => match l with [a; b] => pow a b | _ => Value (code (bytes s)) l end
  | Compare => match l with a :: r => chained a (map (fun b => (code (bytes s), b)) r) | [] => Value (code (bytes s)) l end
  | CompareList => match l with [Value _ (a :: r)] => chained a (map (fun b => (code (bytes s), b)) r) | _ => Value (code (bytes s)) l end
  | CompareMixed => match l with a :: r => chained a (pairs r) | [] => Value (code (bytes s)) l end
  | Items => Value 0 l
  | ApplyAt => match l with [f; x; _] => Value (code (bytes "MapApply")) [f; x] | _ => Value (code (bytes s)) l end
  end.
Proof. intros s k E l. unfold app, name. cbn [apply_to variable Integers]. unfold applied. cbn [num]. cbv zeta. rewrite E. reflexivity. Qed.
Lemma read_digits : forall ds acc, Forall (fun d => 48 <= d <= 57) ds -> read ds acc = fold_left (fun v d => 10 * v + (d - 48)) ds acc.
Proof. intros ds. induction ds as [|d ds IH]; intros acc H; [reflexivity|]. apply Forall_cons_iff in H as [Hd H]. cbn [read fold_left]. destruct (Z.eqb_spec d 45); [lia|]. rewrite (IH _ H). f_equal. lia. Qed.
Lemma Integers_lawful : lawful Integers.
Proof.
  constructor.
  - intros a b c. apply value_eq; cbn [plus Integers add num items]; [lia|apply app_assoc].
  - intros a. split; apply value_eq; cbn [plus zero Integers add num items]; [lia|apply app_nil_r|lia|reflexivity].
  - intros a b c. apply value_eq; cbn [times Integers mul num items]; [lia|apply app_assoc].
  - intros a. split; apply value_eq; cbn [times one Integers mul num items]; [lia|apply app_nil_r|lia|reflexivity].
  - intros a. apply value_eq; cbn [minus times one Integers mul neg num items]; [lia|reflexivity].
  - reflexivity.
  - intros l. apply (applied_action "Plus" Sum). vm_compute. reflexivity.
  - intros l. apply (applied_action "Times" Product). vm_compute. reflexivity.
  - intros a b. apply (applied_action "Power" Raise). vm_compute. reflexivity.
  - reflexivity.
  - reflexivity.
  - intros ds [_ D]. cbn [number integer Integers]. f_equal. unfold decimal. rewrite read_digits by exact D. reflexivity.
  - intros k s _. cbn [number minus Integers]. unfold neg. cbn [num items]. reflexivity.
  - intros s a l H. apply in_map_iff in H as ([s0 ks] & E & H). cbn [fst] in E. subst s0. destruct compare_actions as [C _]. rewrite forallb_forall in C. specialize (C _ H). unfold right_action in C. cbn [fst] in C. rewrite Z.eqb_refl in C.
    rewrite (applied_action s Compare); [|destruct (assoc _ ACTIONS) as [[]|]; try discriminate C; reflexivity]. cbn [chain Integers]. rewrite map_map. reflexivity.
  - intros s a l H. apply in_map_iff in H as ([s0 ks] & E & H). cbn [fst] in E. subst s0. destruct compare_actions as [_ C]. rewrite forallb_forall in C. specialize (C _ H). unfold right_action in C. cbn [fst] in C. rewrite Z.eqb_refl in C.
    rewrite (applied_action s CompareList); [|destruct (assoc _ ACTIONS) as [[]|]; try discriminate C; reflexivity]. rewrite (applied_action "List" Items); [|vm_compute; reflexivity]. cbn [chain Integers]. rewrite map_map. reflexivity.
  - intros a l. rewrite (applied_action "Inequality" CompareMixed); [|vm_compute; reflexivity]. cbn [chain Integers]. unfold name. cbn [variable Integers]. rewrite walk_pairs. reflexivity.
  - intros a l. rewrite (applied_action "Developer`VectorInequality" CompareMixed); [|vm_compute; reflexivity]. cbn [chain Integers]. unfold name. cbn [variable Integers]. rewrite walk_pairs. reflexivity.
  - intros f x. rewrite (applied_action "Apply" ApplyAt); [|vm_compute; reflexivity]. unfold app, name. cbn [apply_to variable Integers]. unfold applied. cbn [num]. cbv zeta. change (assoc (code (bytes "MapApply")) ACTIONS) with (@None action). reflexivity.
Qed.

(** ** Examples *)
Definition aggregated (s : string) : res (list cst) := rbind (parse_cst_raw default_opts true keep NotScript (bytes_of_string s)) (fun p => aggregate_cst_seq (fst p)).
Lemma compares_found : forall t p, find (fun p => zin (t_kind t) (snd p)) (PLAIN_COMPARISONS ++ OTHER_COMPARISONS ++ VECTOR_COMPARISONS) = Some p -> compares t (fst p).
Proof. intros t p F. apply find_some in F as [H K]. exists (snd p). split; [rewrite <- surjective_pairing; exact H|apply zin_In; exact K]. Qed.
Ltac priming := first [apply primed_one; [reflexivity|intros; discriminate] | eapply primed_more; [priming|reflexivity]].
Ltac wording := repeat apply word_plain; first [apply word_quoted | apply word_bare; repeat (apply Forall_cons; [lia|]); apply Forall_nil].
Ltac mean :=
  first
  [ apply means_number; left; reflexivity | apply means_name; [reflexivity|discriminate] | apply means_text; reflexivity | apply means_token; reflexivity
  | apply means_parentheses; [intros (? & X); discriminate X|mean]
  | apply means_minus; mean | apply means_power; mean | apply means_quotient; mean
  | eapply means_product; [repeat constructor|means_all]
  | eapply means_comparison; [repeat constructor|repeat (apply Forall2_cons; [eapply compares_found; vm_compute; reflexivity|]); apply Forall2_nil|left; repeat (constructor; [vm_compute; intuition discriminate|]); constructor|mean|means_all]
  | apply means_call; [mean|mean_inside|intros ? ? ? X Y; destruct Y as (? & Y); try discriminate X; injection X as <- <- <-; discriminate Y]
  | apply means_at; mean
  | apply means_group; [cbn; intuition discriminate|mean_inside]
  | eapply means_derivative; [priming|mean]
  | eapply (means_message _ _ _ _ [_]); [repeat constructor|mean|apply Forall2_cons; [split; [reflexivity|wording]|apply Forall2_nil]]
  | eapply means_get; [reflexivity|wording] | eapply means_put; [cbn; auto|mean|reflexivity|wording]
  | eapply means_named_slot; [cbn; auto|wording] | apply means_pattern_test; [intros; discriminate|mean|mean]
  | eapply means_sum; [repeat constructor|repeat (constructor; [cbn; auto|]); constructor|mean|means_all] ]
with means_all := (repeat (apply Forall2_cons; [mean|]); apply Forall2_nil)
with mean_inside := first [apply inside_none | apply inside_one; [mean|intros (? & X); discriminate X] | eapply inside_some; [repeat constructor|repeat (constructor; [intros (? & ? & ? & X & _ & Y); try discriminate X; injection X as <- <- <-; discriminate Y|]); constructor|means_all]].
(** -2^2 + 3 (4 - 1) - 6 is -1; the value of the abstract tree is then, too. *)
Definition arithmetic := "-2^2 + 3 (4 - 1) - 6".
Example C56_arithmetic_case : exists n, aggregated arithmetic = Ok [n] /\ means Integers n (Value (-1) []).
Proof.
  eexists. split; [vm_compute; reflexivity|]. match goal with |- means _ ?n _ => eassert (M : means Integers n _) by mean end. vm_compute in M. exact M.
Qed.
(** 1 < 3 == 3 > 2 *)
Example C56_comparison_case : exists n, aggregated "1 < 3 == 3 > 2" = Ok [n] /\ means Integers n (truth true).
Proof.
  eexists. split; [vm_compute; reflexivity|]. match goal with |- means _ ?n _ => eassert (M : means Integers n _) by mean end. vm_compute in M. exact M.
Qed.
Example C56_call_case : exists n, aggregated "f[{1, x}, Plus @ 2, {}]" = Ok [n] /\
  means Integers n (Value (code (bytes "f")) [Value 0 [Value 1 []; Value (code (bytes "x")) []]; Value 2 []; Value 0 []]).
Proof.
  eexists. split; [vm_compute; reflexivity|]. match goal with |- means _ ?n _ => eassert (M : means Integers n _) by mean end. vm_compute in M. exact M.
Qed.

(** a name by its character, primes, messages, files, slots and tests *)
Definition other_cases : list (string * value) :=
  let v s := name Integers s in let t s := text Integers (bytes s) in let f s l := app Integers s l in let i n := integer Integers n in
  [("\[Pi] + \:03c0", add (v "Pi") (v "Pi"));
   ("f''", apply_to Integers (f "Derivative" [i 2]) [v "f"]);
   ("f::usage", f "MessageName" [v "f"; t """usage"""]);
   ("<<""init.m""", f "Get" [t """init.m"""]);
   ("<<init.m", f "Get" [t """init.m"""]);
   ("x>>out", f "Put" [v "x"; t """out"""]);
   ("#name", f "Slot" [t """name"""]);
   ("_?f", f "PatternTest" [f "Blank" []; v "f"])].
Example C56_other_cases : Forall (fun p => exists n, aggregated (fst p) = Ok [n] /\ means Integers n (snd p)) other_cases.
Proof.
  repeat (apply Forall_cons; [eexists; split; [vm_compute; reflexivity|]; match goal with |- means _ ?n _ => eassert (M : means Integers n _) by mean end; exact M|]). apply Forall_nil.
Qed.
(** %%%% is Out[-4], also with the percent sign spelled differently *)
Example C56_percent_case : exists n, aggregated "%\.25%\[RawPercent]" = Ok [n] /\ means Integers n (app Integers "Out" [minus Integers (integer Integers 4)]).
Proof.
  eexists. split; [vm_compute; reflexivity|]. apply means_percents; [reflexivity| |lia]. cbn [t_text].
  apply (percents_more (bytes "%") (bytes "\.25%\[RawPercent]") 3); [cbn; auto|]. apply (percents_more (bytes "\.25") (bytes "%\[RawPercent]") 2); [cbn; auto|].
  apply (percents_more (bytes "%") (bytes "\[RawPercent]") 1); [cbn; auto|]. apply (percents_more (bytes "\[RawPercent]") [] 0); [cbn; auto 9|]. apply percents_none.
Qed.
Example C56_hypothesis_case : forall s, bare s -> a_fmt release s = 34 :: s ++ [34].
Proof. reflexivity. Qed.

(** ** Where the meaning is not kept

    With the quirks that are on by default, And @ a && b is And[a, b], not And[And[a], b], and
    {Comma @ a, b} is {a, b}. *)
Definition at_ (s : string) (l : list value) : value := app Integers s l.
Definition var (s : string) : value := name Integers s.
Theorem C56_own_head_refuted : Forall (fun p => exists t, ast_of release (fst (fst p)) = Ok [t] /\ denotes Integers t (snd p) /\ ~ denotes Integers t (snd (fst p)))
  [("And @ a && b", at_ "And" [at_ "And" [var "a"]; var "b"], at_ "And" [var "a"; var "b"]);
   ("{Comma @ a, b}", at_ "List" [at_ "Comma" [var "a"]; var "b"], at_ "List" [var "a"; var "b"])].
Proof.
  assert (A : forall s bad good, (exists t, ast_of release s = Ok [t] /\ denotes Integers t good) -> good <> bad -> exists t, ast_of release s = Ok [t] /\ denotes Integers t good /\ ~ denotes Integers t bad).
  { intros s bad good (t & E & D) N. exists t. split; [exact E|]. split; [exact D|]. intros B. apply N. exact (denotes_one _ _ _ _ D B). }
  constructor; [|constructor; [|constructor]]; (apply A; [|vm_compute; discriminate]); eexists; (split; [vm_compute; reflexivity|]); apply denotes_call; repeat constructor.
Qed.
Print Assumptions C56_own_head_refuted.
