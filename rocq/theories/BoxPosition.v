(** Model of box positions, source.rs 476-495 and 931-1096. *)
From Coq Require Import ZArith List Bool.
From Verif Require Import Base.
Import ListNotations.
Local Open Scope Z_scope.

(** source.rs 481-497 [BoxPosition]; an index is a natural number *)
Inductive box_position :=
| BAt (p : list Z)
| BSpanning (index : list Z) (span : Z * Z)
| BBefore (p : list Z)
| BAfter (p : list Z).

(** [#[derive(PartialEq)]] *)
Definition bp_eqb (a b : box_position) : bool :=
  match a, b with
  | BAt p, BAt q | BBefore p, BBefore q | BAfter p, BAfter q => zlist_eqb p q
  | BSpanning p (x, y), BSpanning q (x', y') => zlist_eqb p q && (x =? x') && (y =? y')
  | _, _ => false
  end.

(** utils.rs 620-626 [most_slice]; with the last element, [split_last] *)
Fixpoint split_last (l : list Z) : option (Z * list Z) :=
  match l with
  | [] => None
  | x :: r => match split_last r with None => Some (x, []) | Some (y, m) => Some (y, x :: m) end
  end.
Definition most_slice (l : list Z) : option (list Z) := match split_last l with None => None | Some (_, m) => Some m end.

(** source.rs 952-957 [Pos] *)
Inductive bpos := PIndex (i : Z) | PSpan (s : Z * Z).

(** source.rs 972-1008: an end two levels deeper than the start is cut *)
Definition normalize (s e : box_position) : box_position * box_position :=
  match s, e with
  | BAt start, BAt endp =>
      if (length endp =? length start + 2)%nat then
        let normalized_end := firstn (length endp - 2) endp in
        match most_slice start, most_slice normalized_end with
        | Some a, Some b => if zlist_eqb a b then (BAt start, BAt normalized_end) else (s, e)
        | _, _ => (s, e)
        end
      else (s, e)
  | _, _ => (s, e)
  end.

(** source.rs 1014-1068: the outer option is [return None] or [return Some(At([]))] *)
Inductive prefix_result := Done (r : option box_position) | Common (common : list Z) (s e : bpos).
Definition common_prefix (s e : box_position) : res prefix_result :=
  match s, e with
  | (BAt start | BBefore start), (BAt endp | BAfter endp) =>
      match split_last start, split_last endp with
      | Some (start_last, start_most), Some (end_last, end_most) =>
          if zlist_eqb start_most end_most then Ok (Common start_most (PIndex start_last) (PIndex end_last)) else Panic
      | None, None => Ok (Done (Some (BAt [])))
      | _, _ => Ok (Done None)
      end
  | BAt start, BSpanning endp span =>
      match split_last start with
      | None => Ok (Done None)
      | Some (start_last, start_most) =>
          if negb (zlist_eqb start_most endp) then Ok (Done None) else Ok (Common start_most (PIndex start_last) (PSpan span))
      end
  | _, _ => Panic
  end.

(** source.rs 1074-1093 *)
Definition combine (common : list Z) (s e : bpos) : res box_position :=
  match s, e with
  | PIndex a, PIndex b =>
      if a =? 1 then match most_slice common with Some p => Ok (BAt p) | None => Panic end
      else if a =? 2 then Ok (BSpanning common (2, b))
      else Panic
  | PIndex a, PSpan (x, _) =>
      if (a =? 1) && (x =? 2) then match most_slice common with Some p => Ok (BAt p) | None => Panic end else Panic
  | _, _ => Panic
  end.

(** source.rs 948-1096 [BoxPosition::between]; [todo!()] is a panic *)
Definition between (s e : box_position) : res (option box_position) :=
  if bp_eqb s e then Ok (Some s)
  else
    let '(s, e) := normalize s e in
    rbind (common_prefix s e) (fun r =>
    match r with
    | Done r => Ok r
    | Common common a b => rmap Some (combine common a b)
    end).
