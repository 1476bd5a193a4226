(** Result type, state monad and small list helpers shared by the whole model.
    Nothing here models a particular Rust function. *)
From Coq Require Import ZArith List Bool Lia.
Import ListNotations.
Local Open Scope Z_scope.

(** Outcome of running a piece of the program: a value, a Rust panic, or the
    model's own fuel running out (a theorem about termination excludes it). *)
Inductive res (A : Type) : Type :=
| Ok : A -> res A
| Panic : res A
| OutOfFuel : res A.
Arguments Ok {A} _.
Arguments Panic {A}.
Arguments OutOfFuel {A}.

Definition rbind {A B} (r : res A) (f : A -> res B) : res B :=
  match r with
  | Ok a => f a
  | Panic => Panic
  | OutOfFuel => OutOfFuel
  end.

Definition rmap {A B} (f : A -> B) (r : res A) : res B :=
  rbind r (fun a => Ok (f a)).

(** [switch x arms default] models a Rust [match x { k => arm, .. }] on integer
    constants: the first arm whose key equals [x]. *)
Fixpoint switch {A} (x : Z) (arms : list (Z * A)) (default : A) : A :=
  match arms with
  | [] => default
  | (k, a) :: rest => if x =? k then a else switch x rest default
  end.

(** [switchl] : arms with several keys ([k1 | k2 | .. => arm]). *)
Fixpoint switchl {A} (x : Z) (arms : list (list Z * A)) (default : A) : A :=
  match arms with
  | [] => default
  | (ks, a) :: rest => if existsb (Z.eqb x) ks then a else switchl x rest default
  end.

Definition zin (x : Z) (l : list Z) : bool := existsb (Z.eqb x) l.

Definition between (a x b : Z) : bool := (a <=? x) && (x <=? b).

Fixpoint assoc {B} (x : Z) (l : list (Z * B)) : option B :=
  match l with
  | [] => None
  | (k, v) :: r => if x =? k then Some v else assoc x r
  end.

(** Equality of byte strings. *)
Fixpoint zlist_eqb (a b : list Z) : bool :=
  match a, b with
  | [], [] => true
  | x :: a', y :: b' => (x =? y) && zlist_eqb a' b'
  | _, _ => false
  end.

Definition zlen {A} (l : list A) : Z := Z.of_nat (length l).

Lemma zin_In : forall l x, zin x l = true <-> In x l.
Proof.
  unfold zin; intros l x; rewrite existsb_exists; split.
  - intros [y [Hy E]]. apply Z.eqb_eq in E. subst; auto.
  - intros H; exists x; split; auto. apply Z.eqb_refl.
Qed.

Lemma between_iff : forall a x b, between a x b = true <-> a <= x <= b.
Proof. unfold between; intros; rewrite andb_true_iff, !Z.leb_le; tauto. Qed.

Lemma zlist_eqb_eq : forall a b, zlist_eqb a b = true <-> a = b.
Proof.
  induction a as [|x a IH]; destruct b as [|y b]; simpl; split; intros H; try discriminate; auto.
  - apply andb_true_iff in H as [H1 H2]. apply Z.eqb_eq in H1. apply IH in H2. subst; auto.
  - injection H as -> ->. rewrite Z.eqb_refl. simpl. apply IH; auto.
Qed.
