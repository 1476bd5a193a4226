(** Long-name and code-point tables: long_names.rs over the generated registration. *)
From Coq Require Import String Ascii ZArith List Bool.
From Verif Require Import Base GenLongNames.
Import ListNotations.
Local Open Scope Z_scope.

(** A Rust [&str] of ASCII letters as its bytes. *)
Fixpoint bytes_of_string (s : string) : list Z :=
  match s with
  | EmptyString => []
  | String a r => Z.of_nat (nat_of_ascii a) :: bytes_of_string r
  end.

(** Rust [str::cmp]: lexicographic on bytes. *)
Fixpoint bytes_cmp (a b : list Z) : comparison :=
  match a, b with
  | [], [] => Eq
  | [], _ :: _ => Lt
  | _ :: _, [] => Gt
  | x :: a', y :: b' => match x ?= y with Eq => bytes_cmp a' b' | c => c end
  end.

(** Rust std [slice::binary_search_by] (core::slice, the classical version):
    {[ let mut size = self.len(); let mut left = 0; let mut right = size;
       while left < right { let mid = left + size/2; let cmp = f(self[mid]);
         left = if cmp == Less { mid + 1 } else { left };
         right = if cmp == Greater { mid } else { right };
         if cmp == Equal { return Ok(mid) }; size = right - left; }
       Err(left) ]}
    [f] compares the element with the key; the table is indexed by position. *)
Fixpoint bsearch {A} (fuel : nat) (f : A -> comparison) (l : list A) (d : A)
         (left right : nat) : res (option nat) :=
  match fuel with
  | O => OutOfFuel
  | S k =>
      if Nat.ltb left right then
        let mid := (left + Nat.div2 (right - left))%nat in
        match f (nth mid l d) with
        | Eq => Ok (Some mid)
        | Lt => bsearch k f l d (S mid) right
        | Gt => bsearch k f l d left mid
        end
      else Ok None
  end.

(** Fuel: the range shrinks at every step, so its length + 1 is enough
    (LongNamesProofs). *)
Definition binary_search {A} (f : A -> comparison) (l : list A) (d : A) : option nat :=
  match bsearch (S (length l)) f l d 0 (length l) with
  | Ok r => r
  | _ => None
  end.

(** The tables with names as bytes. *)
Definition LN_TABLE : list (list Z * Z) :=
  Eval vm_compute in List.map (fun p => (bytes_of_string (fst p), snd p)) LONGNAME_TO_CODEPOINT.
Definition RAW_TABLE : list (list Z) :=
  Eval vm_compute in List.map bytes_of_string RAW_SET.

(** long_names.rs 38-52 [longname_to_codepoint] *)
Definition longname_to_codepoint (name : list Z) : option Z :=
  match binary_search (fun e => bytes_cmp (fst e) name) LN_TABLE ([], 0) with
  | Some i => Some (snd (nth i LN_TABLE ([], 0)))
  | None => None
  end.

(** long_names.rs 18-36 [codepoint_to_longname] *)
Definition codepoint_to_longname (point : Z) : option string :=
  match binary_search (fun e => fst e ?= point) CODEPOINT_TO_LONGNAME (0, EmptyString) with
  | Some i => Some (snd (nth i CODEPOINT_TO_LONGNAME (0, EmptyString)))
  | None => None
  end.

(** long_names.rs 54-58 [isRaw] *)
Definition isRaw (name : list Z) : bool :=
  match binary_search (fun e => bytes_cmp e name) RAW_TABLE [] with
  | Some _ => true
  | None => false
  end.

(** [l.binary_search(&c).is_ok()] for a table of code points *)
Definition table_mem (l : list Z) (c : Z) : bool :=
  match binary_search (fun e => e ?= c) l 0 with
  | Some _ => true
  | None => false
  end.

(** [point.as_char()] is [Some] exactly for non-negative encodings. *)
Definition is_char (c : Z) : bool := 0 <=? c.

(** long_names.rs 60-70, 118-155 *)
Definition ln_isMBNotStrangeLetterlike (c : Z) : bool := is_char c && table_mem MB_NOT_STRANGE_LETTERLIKE c.
Definition ln_isMBPunctuation (c : Z) : bool := is_char c && table_mem MB_PUNCTUATION c.
Definition ln_isMBWhitespace (c : Z) : bool := is_char c && table_mem MB_WHITESPACE c.
Definition ln_isMBNewline (c : Z) : bool := table_mem MB_NEWLINE c.
Definition ln_isMBUninterpretable (c : Z) : bool := is_char c && table_mem MB_UNINTERPRETABLE c.

(** generated/long_names_registration.rs 4223- [LongNameCodePointToOperator]:
    the default arm is a panic. *)
Definition LongNameCodePointToOperator (c : Z) : res Z :=
  match assoc c LONGNAME_OPERATOR with
  | Some k => Ok k
  | None => Panic
  end.
