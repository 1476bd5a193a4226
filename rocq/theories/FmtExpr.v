(** Trees printed as expressions: wolfram-parser/src/fmt_as_expr.rs, which bin/main.rs uses to
    show the result of a parse.
    Simplifications: the text is made in one piece, so what was written before a panic is
    forgotten; sources are those of text ([Source::Box] and [Source::Unknown], which panic with
    [todo!], have no counterpart in these trees); the formatter itself does not fail. *)
From Coq Require Import String.
From Coq Require Import ZArith List Bool.
From Verif Require Import Base Source GenTokenKind GenOps TokenKind LongNames Tokenizer Iter Cst Ast Utils Link.
Import ListNotations.
Local Open Scope string_scope.
Local Open Scope list_scope.
Local Open Scope Z_scope.

(** one [write!] after the other *)
Definition out (s : string) : res (list Z) := Ok (bytes_of_string s).
Fixpoint cat (l : list (res (list Z))) : res (list Z) :=
  match l with
  | [] => Ok []
  | a :: r => rbind a (fun x => rbind (cat r) (fun y => Ok (x ++ y)))
  end.
(** [Symbol::as_str] of a symbol that is looked up in a table *)
Definition out_symbol (s : option string) : res (list Z) := match s with Some s => out s | None => Panic end.

(** fmt_as_expr.rs 350-363 [Location] *)
Definition fmt_location (l : loc) : res (list Z) :=
  match l with
  | LineCol line column => cat [out "{"; Ok (int_text line); out ", "; Ok (int_text column); out "}"]
  | CharIdx i => Ok (int_text i)
  end.
(** fmt_as_expr.rs 315-348 [S: TokenSource], [Span] *)
Definition fmt_source (s : span) : res (list Z) :=
  rbind (kind_of_span s) (fun k =>
    match k with
    | LineColumnSpan a b c d => cat [out "{"; fmt_location (LineCol a b); out ", "; fmt_location (LineCol c d); out "}"]
    | CharacterSpan _ _ => Panic
    end).
(** fmt_as_expr.rs 66-91 [Token] *)
Definition fmt_token (t : token) : res (list Z) :=
  cat [out (if isError (t_kind t) then "CodeParser`ErrorNode" else "CodeParser`LeafNode"); out "["; out_symbol (tk_to_symbol (t_kind t)); out ", ";
       if utf8_valid (t_text t) then cat [out """"; Ok (t_text t); out """"] else Panic;
       out ", "; fmt_source (t_src t); out "]"].
(** fmt_as_expr.rs 29-64 [NodeSeq] *)
Definition fmt_seq (l : list (res (list Z))) : res (list Z) :=
  cat [out "System`List"; out "["; cat (map (fun a => cat [a; out ", "]) l); out "]"].
(** fmt_as_expr.rs 281-313 [put_op] *)
Definition fmt_op (head : string) (symbol : option string) (children : res (list Z)) (src : res span) : res (list Z) :=
  cat [out head; out "["; out_symbol symbol; out ", "; children; out ", "; rbind src fmt_source; out "]"].
(** fmt_as_expr.rs 94-190 [Cst], [CallNode], [CallHead], [CallBody], [SyntaxErrorNode], 192-279 *)
Fixpoint fmt_node (n : cst) : res (list Z) :=
  match n with
  | Tok t => fmt_token t
  | Call h m op body =>
      cat [out "CodeParser`CallNode"; out "[";
           match h with Concrete l => fmt_seq (map fmt_node l) | Aggregate x => fmt_node x end; out ", ";
           fmt_op (op_head (if m then KGroupMissingCloser else KGroup)) (op_to_symbol call_family op) (fmt_seq (map fmt_node body)) (sources_between (map get_source body));
           out ", "; rbind (get_source n) fmt_source; out "]"]
  | SynErr e ch =>
      fmt_op "CodeParser`SyntaxErrorNode" (Some (syntax_error_symbol e)) (fmt_seq (map fmt_node ch)) (get_source n)
  | Op k op ch => fmt_op (op_head k) (op_to_symbol (family_of k) op) (fmt_seq (map fmt_node ch)) (get_source n)
  | BoxN _ _ _ | CodeN _ _ _ => Panic
  end.
(** fmt_as_expr.rs 29-44, bin/main.rs 112-160 with the default mode *)
Definition fmt_nodes (l : list cst) : res (list Z) := fmt_seq (map fmt_node l).
