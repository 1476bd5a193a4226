(** The character iterators (iter.rs) and safe_string (lib.rs). *)
From Coq Require Import ZArith List Bool.
From Verif Require Import Base Source WLChar ByteDecoder CharDecoder.
Import ListNotations.
Local Open Scope Z_scope.

(** Repeatedly run [m] until [stop] holds of its result; the stopping result is not
    included.  This is what consuming an [Iterator] of iter.rs to its first [None] does
    (iter.rs 121-151). *)
Fixpoint collect {A} (fuel : nat) (m : M A) (stop : A -> bool) : M (list A) :=
  match fuel with
  | O => out_of_fuel
  | S k =>
      a <- m ;;
      if stop a then ret []
      else l <- collect k m stop ;; ret (a :: l)
  end.

(** iter.rs 69-76, 121-136: [source_chars(input, opts).collect()] *)
Definition read_source_chars (o : opts) : M (list Z) :=
  with_fuel (fun k => collect k (next_source_char o TOPLEVEL) (fun c => c =? EndOfFile)).

(** iter.rs 79-86, 138-153: [wolfram_chars(input, opts).collect()] *)
Definition read_wolfram_chars (o : opts) : M (list wlchar) :=
  with_fuel (fun k => collect k (next_wolfram_char o TOPLEVEL) (fun c => wc c =? EndOfFile)).

Definition source_chars (o : opts) (input : list Z) : res (list Z) :=
  rmap fst (read_source_chars o (reader_new o input)).
Definition wolfram_chars (o : opts) (input : list Z) : res (list wlchar) :=
  rmap fst (read_wolfram_chars o (reader_new o input)).

(** core [std::str::from_utf8(bytes).is_ok()]: the byte ranges of its validation
    loop (Unicode Table 3-7). *)
Fixpoint utf8_valid (bs : list Z) : bool :=
  match bs with
  | [] => true
  | b :: r =>
      if between 0 b 0x7f then utf8_valid r
      else match r with
      | [] => false
      | b2 :: r2 =>
          if between 0xc2 b 0xdf then between 0x80 b2 0xbf && utf8_valid r2
          else match r2 with
          | [] => false
          | b3 :: r3 =>
              if ((b =? 0xe0) && between 0xa0 b2 0xbf)
                 || (between 0xe1 b 0xec && between 0x80 b2 0xbf)
                 || ((b =? 0xed) && between 0x80 b2 0x9f)
                 || (between 0xee b 0xef && between 0x80 b2 0xbf)
              then between 0x80 b3 0xbf && utf8_valid r3
              else match r3 with
              | [] => false
              | b4 :: r4 =>
                  (((b =? 0xf0) && between 0x90 b2 0xbf)
                   || (between 0xf1 b 0xf3 && between 0x80 b2 0xbf)
                   || ((b =? 0xf4) && between 0x80 b2 0x8f))
                  && between 0x80 b3 0xbf && between 0x80 b4 0xbf && utf8_valid r4
              end
          end
      end
  end.

(** [Result<&str, UnsafeCharacterEncoding>] *)
Inductive sresult := SOk (str : list Z) | SErr (e : unsafe_encoding).

(** lib.rs 654-689 [safe_string] (the debug assertion in the error branch is the
    property proved about it, see C04) *)
Definition safe_string (o : opts) (input : list Z) : res sresult :=
  match read_source_chars o (reader_new o input) with
  | Ok (_, s) =>
      match l_flag (lg s) with
      | None => if utf8_valid input then Ok (SOk input) else Panic
      | Some f => Ok (SErr f)
      end
  | Panic => Panic
  | OutOfFuel => OutOfFuel
  end.
