(** Second thoughts about unterminated tokens and groups: error.rs; and with them the whole
    of lib.rs [tokenize], [tokenize_bytes], [parse_cst_seq] and [parse_cst].
    Paths are relative to /repo/crates/wolfram-parser/src.

    Simplifications.  A [&str] is its UTF-8 bytes; a [&str] that is a slice of the input is
    given by its offset as well.  Line numbers, columns and indices are unbounded. *)
From Coq Require Import String ZArith List Bool.
From Verif Require Import Base Source LongNames GenTokenKind TokenKind Tokenizer Iter Utils Cst Parser.
Import ListNotations.
Local Open Scope Z_scope.

(** error.rs 614-625 [Line]; [ln_off] is where in the input [content] points *)
Record line := mkline { ln_off : nat; ln_content : list Z; ln_newline : list Z }.

(** error.rs 629-634 [Line::split] *)
Fixpoint lines_at (off : nat) (l : list (list Z * list Z)) : list line :=
  match l with
  | [] => []
  | (c, n) :: r => mkline off c n :: lines_at (off + length c + length n) r
  end.
Definition Line_split (input : list Z) : list line := lines_at 0 (split_lines_keep_sep input).

(** a byte that continues a character rather than starting one *)
Definition continues (b : Z) : bool := between 0x80 b 0xbf.

(** error.rs 818-827 [tab_next_column] *)
Definition tab_next_column (col tw : Z) : res Z :=
  if tw =? 0 then Panic else Ok (tw * ((col - 1) / tw) + 1 + tw).
(** error.rs 811-816 [next_column], for the first byte of a character *)
Definition next_column (col tw b : Z) : res Z := if b =? 9 then tab_next_column col tw else Ok (col + 1).

(** error.rs 798-809 [line_column_width] *)
Fixpoint walk_columns (col tw : Z) (l : list Z) : res Z :=
  match l with
  | [] => Ok col
  | b :: r => if continues b then walk_columns col tw r else rbind (next_column col tw b) (fun col => walk_columns col tw r)
  end.
Definition line_column_width (l : list Z) (tw : Z) : res Z := rmap (fun col => col - 1) (walk_columns 1 tw l).

(** error.rs 642-707 [Line::index_columns]: how many bytes come before the first character
    whose columns include [want] *)
Fixpoint index_columns (col tw want : Z) (l : list Z) : res nat :=
  match l with
  | [] => Panic
  | b :: r =>
      if continues b then rmap S (index_columns col tw want r)
      else rbind (next_column col tw b) (fun col' =>
        if (col <=? want) && (want <? col') then Ok O else rmap S (index_columns col' tw want r))
  end.

(** error.rs 571-578 [retain_range]: [truncate], then [drain] *)
Definition retain_range {A} (l : list A) (first fin : nat) : res (list A) :=
  let l := firstn fin l in if (length l <? first)%nat then Panic else Ok (skipn first l).

(** error.rs 540-569 [lines_start_and_end_char_indexes]: counts bytes *)
Definition line_range (l : line) : Z * Z :=
  (Z.of_nat (ln_off l), Z.of_nat (ln_off l + length (ln_content l) + length (ln_newline l))).

(** error.rs 484-508 [is_top_level_directive] *)
Definition DIRECTIVES : list (list Z) := Eval vm_compute in map bytes_of_string
  ["BeginPackage"; "Begin"; "Needs"; "End"; "EndPackage"; "Clear"; "ClearAll"; "SetOptions"; "SetAttributes";
   "System`Private`NewContextPath"; "System`Private`RestoreContextPath"; "Protect"; "Unprotect"; "Package";
   "PackageImport"; "PackageScope"; "PackageExport"; "Get"; "SetDelayed"; "UpSetDelayed"; "TagSetDelayed"]%string.
Definition is_top_level_directive (s : list Z) : bool := existsb (zlist_eqb s) DIRECTIVES.

(** [str::trim_start_matches("( *")] on bytes *)
Fixpoint trim_comment_openers (l : list Z) : list Z :=
  match l with
  | a :: ((b :: r) as t) => if (a =? 40) && (b =? 42) then trim_comment_openers r else l
  | _ => l
  end.
(** [str::trim_start]: Unicode White_Space, encoded *)
Fixpoint trim_start (fuel : nat) (l : list Z) : list Z :=
  match fuel with
  | O => l
  | S k =>
      match l with
      | a :: r =>
          if between 9 a 13 || (a =? 32) then trim_start k r
          else match r with
          | b :: r2 =>
              if (a =? 0xc2) && ((b =? 0x85) || (b =? 0xa0)) then trim_start k r2
              else match r2 with
              | c :: r3 =>
                  if ((a =? 0xe1) && (b =? 0x9a) && (c =? 0x80))
                     || ((a =? 0xe2) && (b =? 0x80) && (between 0x80 c 0x8a || zin c [0xa8; 0xa9; 0xaf]))
                     || ((a =? 0xe2) && (b =? 0x81) && (c =? 0x9f))
                     || ((a =? 0xe3) && (b =? 0x80) && (c =? 0x80))
                  then trim_start k r3 else l
              | [] => l
              end
          | [] => l
          end
      | [] => l
      end
  end.

(** error.rs 372-392: the tokens that are looked at *)
Definition counts_for_statement (t : token) : bool :=
  if t_kind t =? TK_Comment then true
  else if isTrivia (t_kind t) then
    match sp_start (t_src t) with LineCol _ c => c =? 1 | CharIdx i => i =? 0 end
  else true.

Definition is_set (t : token) : bool := (t_kind t =? TK_Equal) || (t_kind t =? TK_ColonEqual).
(** error.rs 394-480 *)
Definition statement_start (ts : list token) : bool :=
  match ts with
  | t :: r =>
      if (t_kind t =? TK_Symbol) && match r with u :: _ => t_kind u =? TK_OpenSquare | [] => false end then
        is_top_level_directive (t_text t) || existsb is_set (tl r)
      else if (t_kind t =? TK_Symbol) && match r with u :: _ => is_set u | [] => false end then true
      else if (t_kind t =? TK_CloseSquare) && match r with u :: _ => is_set u | [] => false end then true
      else if t_kind t =? TK_Comment then
        let l := trim_comment_openers (t_text t) in
        match trim_start (length l) l with c :: _ => c =? 58 | [] => false end
      else false
  | [] => false
  end.

(** str slicing panics off a character boundary *)
Definition is_char_boundary (s : list Z) (i : nat) : bool :=
  (i =? length s)%nat || match nth_error s i with Some b => negb (continues b) | None => false end.
Definition slice (s : list Z) (a b : nat) : res (list Z) :=
  if (a <=? b)%nat && is_char_boundary s a && is_char_boundary s b then Ok (firstn (b - a) (skipn a s)) else Panic.

Section MapRes.
Context {A B : Type} (f : A -> res B).
Fixpoint map_res (l : list A) : res (list B) :=
  match l with
  | [] => Ok []
  | a :: r => rbind (f a) (fun b => rmap (cons b) (map_res r))
  end.
End MapRes.

Section Reparse.
(** [crate::tokenize(line, &Default::default())] *)
Variable tokenize_line : list Z -> res (list token).

(** error.rs 367-481 [is_new_statement_line] *)
Definition is_new_statement_line (l : list Z) : res bool :=
  rmap (fun ts => statement_start (filter counts_for_statement ts)) (tokenize_line l).

(** error.rs 359-363 [split_into_chunks] *)
Definition split_into_chunks (l : list line) : res (list (list line)) :=
  split_by_pairs (fun _ right => rmap negb (is_new_statement_line (ln_content right))) l.

(** error.rs 282-287: from line [i] of the chunk backwards; [i -= 1] at 0 panics *)
Fixpoint last_good (chunk : list line) (i : nat) : res nat :=
  match nth_error chunk i with
  | None => Panic
  | Some l => match ln_content l, i with
              | [], O => Panic
              | [], S k => last_good chunk k
              | _, _ => Ok i
              end
  end.

(** error.rs 209-357 [first_chunk_and_last_good_line] *)
Definition first_chunk_and_last_good_line (input : list Z) (tw : Z) (src : span) : res (list line * nat * span) :=
  let lines := Line_split input in
  rbind (kind_of_span src) (fun kind =>
  rbind (match kind with
         | LineColumnSpan l1 _ l2 _ => retain_range lines (Z.to_nat (l1 - 1)) (Z.to_nat l2)
         | CharacterSpan a b =>
             filter_map_res (fun l => rmap (fun i : bool => if i then Some l else None) (char_intersects (line_range l) (a, b))) lines
         end) (fun lines =>
  rbind (split_into_chunks lines) (fun chunks =>
  match chunks with
  | [] => Panic
  | chunk :: _ =>
      rbind (last_good chunk (length chunk - 1)) (fun i =>
      rbind (match kind with
             | LineColumnSpan l1 c1 _ _ =>
                 rmap (fun w => mkspan (LineCol l1 c1) (LineCol (l1 + Z.of_nat i) (w + 1)))
                      (line_column_width (ln_content (nth i chunk (mkline 0 [] []))) tw)
             | CharacterSpan a _ =>
                 match nth_error lines i with
                 | Some l => Ok (mkspan (CharIdx a) (CharIdx (snd (line_range l) + 1)))
                 | None => Panic
                 end
             end) (fun better =>
      Ok (chunk, i, better)))
  end))).

(** error.rs 129-194 [reparse_unterminated_token_error_node] *)
Definition reparse_token (input : list Z) (tw : Z) (t : token) : res token :=
  rbind (first_chunk_and_last_good_line input tw (t_src t)) (fun '(chunk, i, better) =>
  match sp_start better, sp_end better with
  | LineCol _ c1, LineCol _ _ =>
      match chunk with
      | [] => Panic
      | first :: r =>
          rbind (index_columns 1 tw c1 (ln_content first)) (fun ix =>
          let a := (ln_off first + ix)%nat in
          rbind (match r with
                 | [] => Ok (ln_off first + length (ln_content first))%nat
                 | _ => if (i <? 1)%nat then Panic                      (* first_chunk[1..0] *)
                        else let comp := last (firstn (i - 1) r) first in
                             Ok (ln_off comp + length (ln_content comp))%nat
                 end) (fun b =>
          rmap (fun text => mktok (t_kind t) (skipn a input) text better) (slice input a b)))
      end
  | CharIdx a, CharIdx b =>
      rbind (to_rust_range (a, b)) (fun '(a, b) =>
      rmap (fun text => mktok (t_kind t) (skipn (Z.to_nat a) input) text better) (slice input (Z.to_nat a) (Z.to_nat b)))
  | _, _ => Panic
  end).

Definition unterminated (t : token) : bool := isError (t_kind t) && isUnterminated (t_kind t).
(** error.rs 44-50 and 24-30: what is done to each token *)
Definition reparse_if (input : list Z) (tw : Z) (t : token) : res token :=
  if unterminated t then reparse_token input tw t else Ok t.

(** error.rs 36-53 [reparse_unterminated_tokens] *)
Definition reparse_unterminated_tokens (input : list Z) (tw : Z) : list token -> res (list token) :=
  map_res (reparse_if input tw).

(** error.rs 16-33 [reparse_unterminated]: [visit_mut] with a closure that only changes
    tokens *)
Fixpoint map_tokens (f : token -> res token) (n : cst) : res cst :=
  match n with
  | Tok t => rmap Tok (f t)
  | Call h m op body =>
      rbind (match h with
             | Concrete l => rmap Concrete (map_res (map_tokens f) l)
             | Aggregate x => rmap Aggregate (map_tokens f x)
             end) (fun h =>
      rmap (Call h m op) (map_res (map_tokens f) body))
  | SynErr e ch => rmap (SynErr e) (map_res (map_tokens f) ch)
  | Op k op ch => rmap (Op k op) (map_res (map_tokens f) ch)
  | BoxN b ch src => rmap (fun ch => BoxN b ch src) (map_res (map_tokens f) ch)
  | CodeN _ _ _ => Ok n
  end.
Definition reparse_unterminated (input : list Z) (tw : Z) : list cst -> res (list cst) :=
  map_res (map_tokens (reparse_if input tw)).

(** error.rs 86-100: the tokens in the order of [visit], each tested *)
Definition overlapping (better : span) (n : cst) (r : res (list cst)) : res (list cst) :=
  match n with
  | Tok t => rbind r (fun l => rmap (fun b : bool => if b then l ++ [Tok t] else l) (span_overlaps better (t_src t)))
  | _ => r
  end.

(** error.rs 64-119 [reparse_unterminated_group_node]; parse.rs 1486-1490: the input must be
    UTF-8 *)
Definition repair_group (input : list Z) (tw : Z) (op : Z) (children : list cst) : res (list cst) :=
  if negb (utf8_valid input) then Panic
  else
    rbind (sources_between (map get_source children)) (fun src =>
    rbind (first_chunk_and_last_good_line input tw src) (fun '(_, _, better) =>
    fold_left (fun r n => visit (overlapping better) n r) children (Ok []))).

End Reparse.

(** ** lib.rs *)

(** lib.rs 262-300 [ParseOptions::default]; the characters counted as alphanumeric are not an
    option *)
Definition options_default (o : opts) : opts := mkopts ConvLineColumn 4 true true true (o_alnum o).

(** [Result<NodeSeq<Token>, UnsafeCharacterEncoding>] *)
Inductive tresult := TOk (ts : list token) | TErr (e : unsafe_encoding).

(** lib.rs 385-422 [tokenize_bytes] and 376-383 [tokenize], with a bound on how deep they call
    each other through [is_new_statement_line] *)
Fixpoint tokenize_bytes_n (fuel : nat) (o : opts) (b : first_line) (input : list Z) : res tresult :=
  match fuel with
  | O => OutOfFuel
  | S k =>
      match tokenize_raw o b input with
      | Ok (ts, s) =>
          match l_flag (lg s) with
          | Some e => Ok (TErr e)
          | None =>
              if utf8_valid input then
                rmap TOk (reparse_unterminated_tokens
                  (fun l => rbind (tokenize_bytes_n k (options_default o) NotScript l)
                              (fun r => match r with TOk ts => Ok ts | TErr _ => Panic end))
                  input (o_tab_width o) ts)
              else Ok (TOk ts)
          end
      | Panic => Panic
      | OutOfFuel => OutOfFuel
      end
  end.
Definition tokenize_n (fuel : nat) (o : opts) (b : first_line) (input : list Z) : res (list token) :=
  rbind (tokenize_bytes_n fuel o b input) (fun r => match r with TOk ts => Ok ts | TErr _ => Panic end).

(** A line has no line breaks, so tokenizing one looks at no further lines: see
    ReparseProofs. *)
Definition tokenize_depth : nat := 2.
Definition tokenize_bytes := tokenize_bytes_n tokenize_depth.
Definition tokenize := tokenize_n tokenize_depth.
(** [crate::tokenize(line, &Default::default())] *)
Definition tokenize_line (o : opts) (l : list Z) : res (list token) := tokenize (options_default o) NotScript l.

(** parse.rs 91-111 [parse], parse_cst.rs 167-189 [finish]; lib.rs 478-489
    [parse_bytes_cst_seq].  The second component is what the session has recorded. *)
Definition parse_cst_seq (o : opts) (dbg : bool) (b : first_line) (input : list Z) : res (list cst * pst) :=
  rbind (parse_cst_raw o dbg (repair_group (tokenize_line o) input (o_tab_width o)) b input) (fun '(l, s) =>
  if utf8_valid input then rmap (fun l => (l, s)) (reparse_unterminated (tokenize_line o) input (o_tab_width o) l)
  else Ok (l, s)).

(** lib.rs 462-476 [parse_cst] with 781-809 [expect_single_item] *)
Definition parse_cst (o : opts) (dbg : bool) (b : first_line) (input : list Z) : res (cst * pst) :=
  rbind (parse_cst_seq o dbg b input) (fun '(l, s) => match l with [n] => Ok (n, s) | _ => Panic end).
