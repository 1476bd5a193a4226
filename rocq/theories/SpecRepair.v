(** What the repair of incomplete input may do to a tree. *)
From Coq Require Import ZArith List.
From Verif Require Import Base Source GenTokenKind TokenKind Tokenizer Cst SpecCst SpecReparse SpecParse.
Import ListNotations.
Local Open Scope Z_scope.

(** a node whose closing bracket is missing *)
Definition lacks_closer (n : cst) : Prop :=
  (exists op ch, n = Op KGroupMissingCloser op ch) \/ (exists h op ch, n = Call h true op ch).

(** nothing is missing: every bracket is closed, every comment and string ends *)
Definition complete (l : list cst) : Prop :=
  Forall (everywhere (fun n => ~ lacks_closer n)) l /\
  (forall ts, all_tokens l ts -> Forall (fun t => ~ unterminated_kind (t_kind t)) ts).

(** [picked a b]: [a] is [b] without some of its elements *)
Inductive picked {A} : list A -> list A -> Prop :=
| picked_nil : picked [] []
| picked_keep : forall x a b, picked a b -> picked (x :: a) (x :: b)
| picked_drop : forall x a b, picked a b -> picked a (x :: b).

(** [patched n n']: [n'] is [n], except that a comment or string without end may have been
    shortened, and that the contents of a group that lacks its closing bracket may have been
    replaced by some of the tokens in it. *)
Inductive patched : cst -> cst -> Prop :=
| patched_token : forall t, patched (Tok t) (Tok t)
| patched_cut : forall t t', unterminated_kind (t_kind t) -> t_kind t' = t_kind t -> patched (Tok t) (Tok t')
| patched_op : forall k op ch ch', Forall2 patched ch ch' -> patched (Op k op ch) (Op k op ch')
| patched_error : forall e ch ch', Forall2 patched ch ch' -> patched (SynErr e ch) (SynErr e ch')
| patched_call : forall l l' m op ch ch', Forall2 patched l l' -> Forall2 patched ch ch' ->
    patched (Call (Concrete l) m op ch) (Call (Concrete l') m op ch')
| patched_group : forall op ch ts kept ch', all_tokens ch ts -> picked kept ts -> Forall2 patched (map Tok kept) ch' ->
    patched (Op KGroupMissingCloser op ch) (Op KGroupMissingCloser op ch')
| patched_group_call : forall l l' op ch ts kept ch', Forall2 patched l l' -> all_tokens ch ts -> picked kept ts ->
    Forall2 patched (map Tok kept) ch' ->
    patched (Call (Concrete l) true op ch) (Call (Concrete l') true op ch').
