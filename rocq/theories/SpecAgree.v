(** Trees that differ only in their tokens. *)
From Coq Require Import ZArith List.
From Verif Require Import Base Source Tokenizer Cst.
Import ListNotations.
Local Open Scope Z_scope.

(** the same nodes, with related tokens in the same places *)
Inductive alike (R : token -> token -> Prop) : cst -> cst -> Prop :=
| alike_token : forall t u, R t u -> alike R (Tok t) (Tok u)
| alike_op : forall k op ch ch', Forall2 (alike R) ch ch' -> alike R (Op k op ch) (Op k op ch')
| alike_error : forall e ch ch', Forall2 (alike R) ch ch' -> alike R (SynErr e ch) (SynErr e ch')
| alike_call : forall l l' m op ch ch', Forall2 (alike R) l l' -> Forall2 (alike R) ch ch' ->
    alike R (Call (Concrete l) m op ch) (Call (Concrete l') m op ch').
