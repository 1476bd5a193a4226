(** C52: when parsing to abstract syntax gives a tree. *)
From Coq Require Import String.
From Coq Require Import ZArith List Bool.
From Verif Require Import Base Source LongNames GenTokenKind GenOps TokenKind Tokenizer SpecText SpecReader SpecTokenizer Cst SpecCst CstProofs Parser SpecParser SpecParse PropsReader
  Ast Abstract SpecAbstract AbstractProofs AbstractTheorems.
Import ListNotations.
Local Open Scope string_scope.
Local Open Scope list_scope.
Local Open Scope Z_scope.

(** Abstraction ends, on every tree: those of the parser, and those put together by hand. *)
Theorem C52_terminates : forall a n, abstract_cst a n <> OutOfFuel.
Proof. intros a n. exact (abstract_nf a (size n) n (Nat.le_refl _)). Qed.
Print Assumptions C52_terminates.

(** It gives a tree for every input without one of the things listed in SpecAbstract. *)
Theorem C52_total : forall o dbg b input l s' a,
  0 < o_tab_width o -> well_formed_no_bom input -> parse_cst_raw o dbg keep b input = Ok (l, s') ->
  exists l', aggregate_cst_seq l = Ok l' /\ ((forall n, In n l' -> untroubled a n) -> exists asts, to_ast a l = Ok asts).
Proof. exact to_ast_total. Qed.
Print Assumptions C52_total.

(** The things listed do make it give up.  [ast_of a s] is [parse_ast_seq] with the settings [a]. *)
Definition ast_of (a : aopts) (s : string) : res (list ast) :=
  rbind (parse_cst_raw default_opts (a_dbg a) keep NotScript (bytes_of_string s)) (fun '(l, _) => to_ast a l).
Definition quoted (s : list Z) : list Z := 34 :: s ++ [34].
(** quirks.rs 53-72 [QuirkSettings::default] *)
Definition release : aopts := mk_aopts false true false false quoted.
Definition debug : aopts := mk_aopts true true false false quoted.
Theorem C52_total_refuted : Forall (fun s => ast_of release s = Panic)
  ["-()"; "-(a, b ])"; "a - (())"; "<<"; "a >>"; "a >>> "; "[a ) ]"; "f[[a] ) ]"; "a + Plus\[InvisibleApplication]b"].
Proof. repeat constructor; vm_compute; reflexivity. Qed.
Print Assumptions C52_total_refuted.
Theorem C52_assertions_refuted : Forall (fun s => ast_of debug s = Panic /\ exists l, ast_of release s = Ok l)
  ["f'"; "-(a*b)'"; "1 - a b"; "a b - c d"].
Proof. repeat (apply Forall_cons; [split; [vm_compute; reflexivity|eexists; vm_compute; reflexivity]|]). apply Forall_nil. Qed.
Print Assumptions C52_assertions_refuted.

(** An input without any of them. *)
Definition harmless := bytes_of_string "f[a - 2, (b + c)*d] := << x; -1".
Example C52_total_case : exists l s' l', parse_cst_raw default_opts true keep NotScript harmless = Ok (l, s') /\ aggregate_cst_seq l = Ok l' /\
  (length l' = 1%nat) /\ (forall n, In n l' -> untroubled debug n).
Proof.
  eexists. eexists. eexists. split; [vm_compute; reflexivity|]. split; [vm_compute; reflexivity|]. split; [reflexivity|].
  intros n [<-|[]] ns m Hp Hm. apply preorder_det in Hp. subst ns. vm_compute in Hm.
  repeat (destruct Hm as [<-|Hm]; [intros T; inversion T; subst; try discriminate; try tauto|]); try contradiction.
  all: repeat match goal with H : after_separator _ _ _ |- _ => apply nth_error_In in H end.
  all: repeat match goal with H : In _ (_ :: _) |- _ => destruct H as [<-|H] | H : In _ [] |- _ => contradiction end.
  all: try discriminate.
  all: try match goal with H : loose _ |- _ => destruct H as (? & ? & ? & H & _); discriminate H end.
  all: first [match goal with H : _ = BOP_Put \/ _ |- _ => destruct H as [H|H]; discriminate H end|match goal with H : ~ a_string _ |- _ => apply H; eexists; split; reflexivity end].
Qed.
