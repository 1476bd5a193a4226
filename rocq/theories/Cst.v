(** Concrete syntax trees: cst.rs, cst/visit.rs, and aggregation (abstract_cst.rs 37-204).
    Simplifications: one constructor [Op] stands for the ten node structs that wrap an
    [OperatorNode] (PrefixNode, InfixNode, ...), the [opkind] saying which; the operator is
    its number in the family of that kind (GenOps); token input and source are those of
    Tokenizer.token; the head of a call is the type parameter-free [callhead]. *)
From Coq Require Import ZArith List Bool.
From Verif Require Import Base Source GenTokenKind GenOps TokenKind Tokenizer.
Import ListNotations.
Local Open Scope Z_scope.

Inductive opkind :=
| KPrefix | KInfix | KPostfix | KBinary | KTernary | KPrefixBinary | KCompound
| KGroup | KGroupMissingCloser | KGroupMissingOpener.

(** cst.rs [CallHead] *)
Inductive callhead (A : Type) := Concrete (l : list A) | Aggregate (n : A).
Arguments Concrete {A} _.
Arguments Aggregate {A} _.

(** parse.rs 926-931 [SyntaxErrorKind] *)
Inductive syntax_error := ExpectedSymbol | ExpectedSet | ExpectedTilde.

(** cst.rs 53-96 [Cst].  The body of a call ([CallBody], an operator node with a call
    operator) is spread out: [missing] is true for [CallBody::GroupMissingCloser]. *)
Inductive cst :=
| Tok (t : token)
| Call (head : callhead cst) (missing : bool) (op : Z) (body : list cst)
| SynErr (err : syntax_error) (children : list cst)
| Op (k : opkind) (op : Z) (children : list cst)
| BoxN (kind : Z) (children : list cst) (src : span)
| CodeN (first second : list Z) (src : span).

(** ** Visiting (cst/visit.rs) *)

Definition head_nodes (h : callhead cst) : list cst :=
  match h with Concrete l => l | Aggregate n => [n] end.

(** visit.rs 55-91 [Cst::visit], 18-24 [CstSeq::visit], 239-243 [visit_children],
    270-275 [CallHead::visit].  The closure and everything it writes to is a function on
    a state. *)
Fixpoint visit {S} (f : cst -> S -> S) (n : cst) (s : S) {struct n} : S :=
  let visit_seq := fold_left (fun s m => visit f m s) in
  let s := f n s in
  match n with
  | Tok _ => s
  | Call h _ _ body =>
      let s := match h with Concrete l => visit_seq l s | Aggregate m => visit f m s end in
      visit_seq body s
  | SynErr _ ch => visit_seq ch s
  | Op _ _ ch => visit_seq ch s
  | BoxN _ ch _ => visit_seq ch s
  | CodeN _ _ _ => s
  end.

(** a loop that passes the state along and collects the results *)
Definition map_state {A B S} (f : A -> S -> res (B * S)) : list A -> S -> res (list B * S) :=
  fix go l s :=
    match l with
    | [] => Ok ([], s)
    | a :: r => rbind (f a s) (fun '(b, s) => rbind (go r s) (fun '(bs, s) => Ok (b :: bs, s)))
    end.

(** visit.rs 151-230 [Cst::map_visit] (also 94-148 [visit_mut], which replaces nodes in
    place).  The code descends into the children of what the closure returned, so nothing
    bounds its recursion: [fuel]. *)
Fixpoint map_visit {S} (f : cst -> S -> cst * S) (fuel : nat) (n : cst) (s : S) : res (cst * S) :=
  match fuel with
  | O => OutOfFuel
  | Datatypes.S k =>
      let seq := map_state (map_visit f k) in
      let '(n, s) := f n s in
      match n with
      | Tok _ => Ok (n, s)
      | Call h m op body =>
          rbind (match h with
                 | Concrete l => rbind (seq l s) (fun '(l, s) => Ok (Concrete l, s))
                 | Aggregate x => rbind (map_visit f k x s) (fun '(x, s) => Ok (Aggregate x, s))
                 end) (fun '(h, s) =>
          rbind (seq body s) (fun '(body, s) => Ok (Call h m op body, s)))
      | SynErr e ch => rbind (seq ch s) (fun '(ch, s) => Ok (SynErr e ch, s))
      | Op kd op ch => rbind (seq ch s) (fun '(ch, s) => Ok (Op kd op ch, s))
      | BoxN b ch src => rbind (seq ch s) (fun '(ch, s) => Ok (BoxN b ch src, s))
      | CodeN _ _ _ => Ok (n, s)
      end
  end.

(** ** Sources *)

(** token.rs 92-96 [Span::between]: [assert!(start <= end)], which compares the starts
    (source.rs 1183-1187), then [Span::new] *)
Definition span_between (a b : span) : res span :=
  match loc_leb (sp_start a) (sp_start b) with
  | Some true => Span_new (sp_start a) (sp_end b)
  | _ => Panic
  end.

(** cst.rs 337-347 [CstSeq::get_source], given the sources of the nodes *)
Definition sources_between (l : list (res span)) : res span :=
  match l with
  | [] => Panic
  | a :: _ => rbind a (fun a => rbind (last l Panic) (fun b => span_between a b))
  end.

(** cst.rs 440-461 [Cst::get_source], 737-750 [CallNode::get_source].  Panics on a node
    without children. *)
Fixpoint get_source (n : cst) : res span :=
  match n with
  | Tok t => Ok (t_src t)
  | Call h _ _ body =>
      rbind (match h with
             | Concrete l => match map get_source l with [] => Panic | a :: _ => a end
             | Aggregate m => get_source m
             end) (fun a =>
      rbind (sources_between (map get_source body)) (fun b => span_between a b))
  | SynErr _ ch => sources_between (map get_source ch)
  | Op _ _ ch => sources_between (map get_source ch)
  | BoxN _ _ src => Ok src
  | CodeN _ _ src => Ok src
  end.

(** ** Aggregation *)

(** abstract_cst.rs 54-62: the kinds of the tokens that are removed *)
Definition agg_removed_kind (k : Z) : bool :=
  zin k [TK_Comment; TK_InternalNewline; TK_ToplevelNewline; TK_Boxes_MultiWhitespace; TK_Whitespace].

(** [into_iter().flat_map(f).collect()] with an [f] that may panic *)
Definition filter_map_res {A B} (f : A -> res (option B)) : list A -> res (list B) :=
  fix go l :=
    match l with
    | [] => Ok []
    | a :: r =>
        rbind (f a) (fun x => rbind (go r) (fun bs =>
          Ok (match x with Some b => b :: bs | None => bs end)))
    end.

(** abstract_cst.rs 51-189 [aggregate_cst], 41-49 [aggregate_cst_seq], 193-202
    [aggregate_op].  [debug_assert!(head.len() == 1)] and [unwrap] both panic unless the
    aggregated head is one node. *)
Fixpoint aggregate_cst (n : cst) : res (option cst) :=
  let seq := filter_map_res aggregate_cst in
  match n with
  | Tok t => Ok (if agg_removed_kind (t_kind t) then None else Some n)
  | Call (Concrete l) m op body =>
      rbind (seq l) (fun hs =>
        match hs with
        | [h] => rbind (seq body) (fun body => Ok (Some (Call (Aggregate h) m op body)))
        | _ => Panic
        end)
  | Call (Aggregate _) _ _ _ => Panic
  | SynErr e ch => rbind (seq ch) (fun ch => Ok (Some (SynErr e ch)))
  | Op k op ch =>
      match k with
      | KGroup => if op =? GOP_Token_Comment then Ok None else rbind (seq ch) (fun ch => Ok (Some (Op k op ch)))
      | _ => rbind (seq ch) (fun ch => Ok (Some (Op k op ch)))
      end
  | BoxN b ch src => rbind (seq ch) (fun ch => Ok (Some (BoxN b ch src)))
  | CodeN _ _ _ => Ok (Some n)
  end.

Definition aggregate_cst_seq : list cst -> res (list cst) := filter_map_res aggregate_cst.
