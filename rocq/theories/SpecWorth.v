(** Specification of the value of an expression of SpecPrint.v, in a world of SpecValue.v.  It is
    read off the expression as it is meant to be: no tree of the parser occurs in it. *)
From Coq Require Import String.
From Coq Require Import ZArith List Bool.
From Verif Require Import Base GenTokenKind GenOps GenSymbols GenParselets Parselets Parser SpecValue SpecPrint.
Import ListNotations.
Local Open Scope string_scope.
Local Open Scope list_scope.
Local Open Scope Z_scope.

(** the operators of a chain and the operands behind them *)
Fixpoint links (r : tail) : list (SpecPrint.word * expr) :=
  match r with Last op b => [(op, b)] | Then op b r => (op, b) :: links r end.
Definition ops (r : tail) : list SpecPrint.word := map fst (links r).
Definition operands (r : tail) : list expr := map snd (links r).

(** comparisons and their names *)
Definition compared (op : SpecPrint.word) (s : string) : Prop :=
  exists ks, In (s, ks) (PLAIN_COMPARISONS ++ OTHER_COMPARISONS ++ VECTOR_COMPARISONS) /\ In (fst op) ks.
(** [And@x], as an operand of And *)
Definition heads (s : string) (e : expr) : Prop := exists op x p, e = Binary (Leaf (TK_Symbol, bytes s)) op x /\ as_binary (fst op) = Some (p, BOP_CodeParser_BinaryAt).
(** [a], between further brackets *)
Definition in_brackets (b : body) : Prop := exists t c u, b = Single (Group t c u) /\ fst t = TK_OpenSquare.

(** [e] with k primes *)
Inductive primes : expr -> Z -> expr -> Prop :=
| primes_one : forall e t, fst t = TK_SingleQuote -> (forall e' t', e = Postfix e' t' -> fst t' <> TK_SingleQuote) -> primes (Postfix e t) 1 e
| primes_more : forall m k e t, primes m k e -> fst t = TK_SingleQuote -> primes (Postfix m t) (k + 1) e.

Section Worth.
  Variable w : world.
  Notation val := (V w).

  Definition minuses (op : SpecPrint.word) : bool := (fst op =? TK_Minus) || (fst op =? TK_LongName_Minus).
  (** a - b + c: from left to right *)
  Fixpoint tally (a : val) (l : list (SpecPrint.word * val)) : val :=
    match l with
    | [] => a
    | (t, b) :: r => tally (plus w a (if minuses t then minus w b else b)) r
    end.

  Inductive worth : expr -> val -> Prop :=
  (* names, numbers and strings *)
  | worth_name : forall x, x <> bytes "CodeParser`Comma" -> worth (Leaf (TK_Symbol, x)) (variable w (canonical x))
  | worth_number : forall k x, k = TK_Integer \/ k = TK_Real -> worth (Leaf (k, x)) (number w k x)
  | worth_text : forall x, worth (Leaf (TK_String, x)) (text w x)
  | worth_token : forall k x v, stands_for w k = Some v -> worth (Leaf (k, x)) v
  (* arithmetic *)
  | worth_parentheses : forall t a u v, fst t = TK_OpenParen -> worth a v -> worth (Group t (Single a) u) v
  | worth_minus : forall t a p v, as_prefix (fst t) = Some (p, PREOP_Minus) -> worth a v -> worth (Prefix t a) (minus w v)
  | worth_plus : forall t a p v, as_prefix (fst t) = Some (p, PREOP_Plus) -> worth a v -> worth (Prefix t a) v
  | worth_sum : forall a r p v vs, as_infix (fst (head_word r)) = Some (p, IOP_Plus) -> worth a v -> Forall2 worth (operands r) vs ->
      worth (Infix a r) (tally v (combine (ops r) vs))
  | worth_product : forall a r p v vs, as_infix (fst (head_word r)) = Some (p, IOP_Times) -> worth a v -> Forall2 worth (operands r) vs ->
      worth (Infix a r) (product w (v :: vs))
  | worth_quotient : forall a t b p x y, as_binary (fst t) = Some (p, BOP_Divide) -> worth a x -> worth b y -> worth (Binary a t b) (over w x y)
  | worth_power : forall a t b p x y, as_binary (fst t) = Some (p, BOP_Power) -> worth a x -> worth b y -> worth (Binary a t b) (power w x y)
  (* comparisons; those of vectors are not mixed with others that have no vector form *)
  | worth_comparison : forall a r p ss v vs, as_infix (fst (head_word r)) = Some (p, IOP_CodeParser_InfixInequality) -> Forall2 compared (ops r) ss ->
      Forall (fun s => ~ named VECTOR_COMPARISONS s) ss \/ Forall (fun s => ~ named OTHER_COMPARISONS s) ss ->
      worth a v -> Forall2 worth (operands r) vs -> worth (Infix a r) (chain w v (combine ss vs))
  (* functions and their arguments *)
  | worth_call : forall h t b u f vs, fst t = TK_OpenSquare -> ~ in_brackets b -> worth h f -> worth_inside b vs -> worth (Apply h t b u) (apply_to w f vs)
  | worth_part : forall h t t' b u' u f vs, fst t = TK_OpenSquare -> fst t' = TK_OpenSquare -> worth h f -> worth_inside b vs ->
      worth (Apply h t (Single (Group t' b u')) u) (app w "Part" (f :: vs))
  | worth_part_long : forall h t b u f vs, fst t = TK_LongName_LeftDoubleBracket -> worth h f -> worth_inside b vs -> worth (Apply h t b u) (app w "Part" (f :: vs))
  | worth_type : forall h t b u f vs, fst t = TK_ColonColonOpenSquare -> worth h f -> worth_inside b vs -> worth (Apply h t b u) (apply_to w (app w "TypeSpecifier" [f]) vs)
  | worth_at : forall a t b p f x, as_binary (fst t) = Some (p, BOP_CodeParser_BinaryAt) -> worth a f -> worth b x -> worth (Binary a t b) (apply_to w f [x])
  | worth_slash_slash : forall a t b p x f, as_binary (fst t) = Some (p, BOP_CodeParser_BinarySlashSlash) -> worth a x -> worth b f -> worth (Binary a t b) (apply_to w f [x])
  | worth_group : forall t b u o op vs, prefix_of (fst t) = PP_Group o op ->
      ~ In op [GOP_CodeParser_GroupParen; GOP_CodeParser_GroupSquare; GOP_CodeParser_GroupTypeSpecifier; GOP_CodeParser_GroupDoubleBracket] ->
      worth_inside b vs -> worth (Group t b u) (app w (operator GOP_TO op) vs)
  (* other operators *)
  | worth_prefix : forall t a p op v, as_prefix (fst t) = Some (p, op) ->
      ~ In op [PREOP_Minus; PREOP_Plus; PREOP_CodeParser_PrefixNot2; PREOP_CodeParser_PrefixLinearSyntaxBang; PREOP_Get] ->
      worth a v -> worth (Prefix t a) (app w (operator PREOP_TO op) [v])
  | worth_not_not : forall t a p v, as_prefix (fst t) = Some (p, PREOP_CodeParser_PrefixNot2) -> worth a v -> worth (Prefix t a) (app w "Not" [app w "Not" [v]])
  | worth_postfix : forall a t p op v, as_postfix (fst t) = Some (p, op) -> ~ In op [POSTOP_HermitianConjugate; POSTOP_Derivative] ->
      worth a v -> worth (Postfix a t) (app w (operator POSTOP_TO op) [v])
  | worth_hermitian : forall a t p v, as_postfix (fst t) = Some (p, POSTOP_HermitianConjugate) -> worth a v -> worth (Postfix a t) (app w "ConjugateTranspose" [v])
  | worth_primes : forall a k e v, primes a k e -> worth e v -> worth a (apply_to w (app w "Derivative" [integer w k]) [v])
  | worth_binary : forall a t b p op x y, as_binary (fst t) = Some (p, op) ->
      ~ In op [BOP_Divide; BOP_Power; BOP_CodeParser_BinaryAt; BOP_CodeParser_BinarySlashSlash; BOP_Put; BOP_PutAppend; BOP_Unset; BOP_PatternTest] ->
      worth a x -> worth b y -> worth (Binary a t b) (app w (operator BOP_TO op) [x; y])
  | worth_pattern_test : forall a t b p x y, as_binary (fst t) = Some (p, BOP_PatternTest) ->
      (forall a' t' b' q, a = Binary a' t' b' -> as_binary (fst t') <> Some (q, BOP_PatternTest)) ->
      worth a x -> worth b y -> worth (Binary a t b) (app w "PatternTest" [x; y])
  | worth_infix : forall a r p op v vs, as_infix (fst (head_word r)) = Some (p, op) ->
      ~ In op [IOP_CodeParser_InfixInequality; IOP_Plus; IOP_Times; IOP_Divisible; IOP_CompoundExpression; IOP_MessageName; IOP_CodeParser_InfixTilde] ->
      Forall (fun e => ~ heads (operator IOP_TO op) e) (a :: operands r) ->
      worth a v -> Forall2 worth (operands r) vs -> worth (Infix a r) (app w (operator IOP_TO op) (v :: vs))
  | worth_divides : forall a r p v vs, as_infix (fst (head_word r)) = Some (p, IOP_Divisible) -> Forall (fun e => ~ heads "Divisible" e) (a :: operands r) ->
      worth a v -> Forall2 worth (operands r) vs -> worth (Infix a r) (app w "Divisible" (rev (v :: vs)))
  (* what is between brackets: nothing, one expression, several with commas *)
  with worth_inside : body -> list val -> Prop :=
  | worth_none : worth_inside Empty []
  | worth_one : forall a v, worth a v -> worth_inside (Single a) [v]
  | worth_some : forall a r v vs, Forall (fun e => ~ heads "Comma" e) (a :: operands r) -> worth a v -> Forall2 worth (operands r) vs -> worth_inside (Several a r) (v :: vs).
End Worth.
