(** The functions a kernel calls: codeparser-wll/src/lib.rs.
    Paths are relative to /repo/crates; those without a directory are codeparser-wll/src/lib.rs.

    Simplifications.  A call is the list of its arguments, each of them an expression or a byte
    array; reading an argument as something it is not is a panic, as [unwrap] of the link's error
    is.  The functions that read files, create and destroy sessions, and [Abstract] are not
    modelled; nor is the numeric type of an integer that is read, beyond its range. *)
From Coq Require Import String ZArith List Bool.
From Verif Require Import Base Source LongNames GenTokenKind TokenKind Tokenizer Iter Utils Cst Parser ErrorReparse Link.
Import ListNotations.
Local Open Scope string_scope.
Local Open Scope list_scope.
Local Open Scope Z_scope.
Local Notation "x <~ e ;; k" := (rbind e (fun x => k)) (at level 61, e at next level, right associativity).
Local Notation "a ;+ b" := (wseq a b) (at level 61, right associativity).

(** An argument: an expression, or [ByteArray[..]] with its bytes *)
Inductive item := IExpr (e : expr) | IBytes (l : list Z).

(** [link.get_i32().unwrap()], [link.get_i64().unwrap()] *)
Definition get_int (bits : Z) (i : item) : res Z :=
  match i with
  | IExpr (EInt n) => if (- 2 ^ (bits - 1) <=? n) && (n <? 2 ^ (bits - 1)) then Ok n else Panic
  | _ => Panic
  end.
Definition get_i32 : item -> res Z := get_int 32.
Definition get_i64 : item -> res Z := get_int 64.

(** [.expect(..)] *)
Definition expected {A} (o : option A) : res A := match o with Some a => Ok a | None => Panic end.
Definition expected_f {A} (r : fres A) : res A := o <~ r ;; expected o.

(** 180-194 [read_session_from_link], where a pointer has 8 bytes *)
Definition read_session (i : item) : res Z := n <~ get_i64 i ;; if n <? 0 then Panic else Ok n.

(** 240-261 [read_input_bytes] *)
Definition read_bytes (i : item) : res (list Z) := match i with IBytes l => Ok l | _ => Panic end.

(** 1142-1145 [get_expr] *)
Definition get_expr (i : item) : res expr := match i with IExpr e => Ok e | IBytes _ => Panic end.

(** 196-238 [read_parse_options_from_link]; wolfram-parser/src/lib.rs 309-325 [ParseOptions::make].
    [alnum] is what Rust takes for a letter or digit, as everywhere. *)
Definition read_options (alnum : Z -> bool) (cv tab first : item) (enc : res encoding_mode) (qk : item) : res (opts * first_line * quirks) :=
  n <~ get_i32 cv ;; cv <~ expected (convention_of_i32 n) ;;
  n <~ get_i64 tab ;; tab <~ (if (0 <=? n) && (n <? 2 ^ 32) then Ok n else Panic) ;;
  n <~ get_i32 first ;; first <~ expected (first_line_of_i32 n) ;;
  enc <~ enc ;;
  e <~ get_expr qk ;; q <~ expected_f (quirks_of e) ;;
  Ok (mkopts cv tab true true (match enc with EncNormal => true | EncBox => false end) alnum, first, q).
Definition read_encoding (i : item) : res encoding_mode := n <~ get_i32 i ;; expected (encoding_of_i32 n).

(** wolfram-parser/src/lib.rs 620-648 [parse_to_token]; tokenizer.rs 137-166 [Tokenizer::new] *)
Definition parse_to_token (o : opts) (b : first_line) (m : stringify_mode) (input : list Z) : res (token * st) :=
  match handle_first_line o b (reader_new o input) with
  | Ok (_, s) =>
      match m with
      | StrNormal => next_token o s
      | StrTag => nextToken_stringifyAsTag o s
      | StrFile => nextToken_stringifyAsFile o s
      end
  | Panic => Panic
  | OutOfFuel => OutOfFuel
  end.

(** What the log leaves out of an issue (wolfram-parser/src/issue.rs 13-23): which symbol makes it, its text, how sure
    it is, what can be done, what more is said; and the order in which the sets of places are gone
    through. *)
Record texts := mk_texts { tx_make : issue -> string; tx_msg : issue -> list Z; tx_val : issue -> Z; tx_actions : issue -> list action; tx_descs : issue -> list (list Z);
  tx_order : list loc -> list loc }.
Definition of_issue (tx : texts) (i : issue) : wissue :=
  mk_wissue (tx_make tx i) (i_tag i) (tx_msg tx i) (i_sev i) (SSpan (i_src i)) (tx_val tx i) (tx_actions tx i) (tx_descs tx i) [].

(** wolfram-parser/src/lib.rs 811-821 [create_parse_result] *)
Definition of_log (tx : texts) (l : list node) (g : logs) : parse_result node :=
  mk_result l (l_flag g) (map (of_issue tx) (l_fatal g)) (map (of_issue tx) (l_nonfatal g))
    (tx_order tx (l_simple_lc g), tx_order tx (l_complex_lc g), tx_order tx (l_embedded_newlines g), tx_order tx (l_embedded_tabs g)).

Section Calls.
Variable c : cfg.
Variable tx : texts.
Variable fl : filling.
Variable alnum : Z -> bool.
Variable dbg : bool.

(** 459-478 [ConcreteParseBytes_LibraryLink] *)
Definition concrete_parse_bytes (args : list item) : W :=
  match args with
  | [s; bytes; cv; tab; first; qk] =>
      wlift (read_session s) (fun _ => wlift (read_bytes bytes) (fun input =>
      wlift (read_options alnum cv tab first (Ok EncNormal) qk) (fun '(o, b, _) =>
      wlift (parse_cst_seq o dbg b input) (fun '(l, s') => put_result c (of_log tx (map (of_cst fl) l) (lg (tz s')))))))
  | _ => wpanic
  end.

(** 640-664 [TokenizeBytes_LibraryLink] *)
Definition tokenize_bytes_call (args : list item) : W :=
  match args with
  | [s; bytes; cv; tab; first; qk] =>
      wlift (read_session s) (fun _ => wlift (read_bytes bytes) (fun input =>
      wlift (read_options alnum cv tab first (Ok EncNormal) qk) (fun '(o, b, _) =>
      wlift (tokenize_bytes o b input) (fun r =>
      match r with
      | TOk ts => put_nodes c (map (fun t => of_cst fl (Tok t)) ts)
      | TErr u => wdo (PFun "System`List" 1 :: put_unsafe u)
      end))))
  | _ => wpanic
  end.

(** 844-868 [ConcreteParseLeaf_LibraryLink] *)
Definition concrete_parse_leaf (args : list item) : W :=
  match args with
  | [s; bytes; mode; cv; tab; first; enc; qk] =>
      wlift (read_session s) (fun _ => wlift (read_bytes bytes) (fun input => wlift (get_i32 mode) (fun n =>
      wlift (read_options alnum cv tab first (read_encoding enc) qk) (fun '(o, b, _) => wlift (expected (stringify_of_i32 n)) (fun m =>
      wlift (parse_to_token o b m input) (fun '(t, s') => put_result c (of_log tx [of_cst fl (Tok t)] (lg s'))))))))
  | _ => wpanic
  end.

(** 922-943 [SafeString_LibraryLink]; wolfram-parser/src/lib.rs 292-304 [ParseOptions::default] *)
Definition safe_string_call (args : list item) : W :=
  match args with
  | [s; bytes] =>
      wlift (read_session s) (fun _ => wlift (read_bytes bytes) (fun input =>
      wlift (safe_string (mkopts ConvLineColumn 4 true true true alnum) input) (fun r =>
      match r with SOk str => wdo [PStr str] | SErr u => wdo (put_unsafe u) end)))
  | _ => wpanic
  end.

(** 950-966 [TokenIsEmpty_LibraryLink] *)
Definition token_is_empty (args : list item) : W :=
  match args with
  | [k] =>
      wlift (get_expr k) (fun e => wlift (expected_f (kind_of e)) (fun k =>
      wdo [PExpr (ESym (if isEmpty k then "System`True" else "System`False"))]))
  | _ => wpanic
  end.

(** 300-326 [RoundTripTest_LibraryLink]; [cell] is what an earlier call may have left *)
Definition round_trip_test (cell : option container_kind) (args : list item) : W :=
  match args with
  | [i] =>
      wlift (get_expr i) (fun e =>
      if match e with ENormal (ESym s) _ => String.eqb s "System`Failure" | _ => false end then wdo [PExpr e]
      else wlift (expected_f (fst (container_of c cell e))) (put_container c))
  | _ => wpanic
  end.

End Calls.
