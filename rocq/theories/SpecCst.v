(** What the tree operations are meant to do, said without looking at how they do it. *)
From Coq Require Import ZArith List Bool.
From Verif Require Import Base Source GenTokenKind GenOps Tokenizer Cst.
Import ListNotations.
Local Open Scope Z_scope.

(** the nodes directly below a node, left to right *)
Definition children (n : cst) : list cst :=
  match n with
  | Tok _ | CodeN _ _ _ => []
  | Call (Concrete l) _ _ body => l ++ body
  | Call (Aggregate h) _ _ body => h :: body
  | SynErr _ ch | Op _ _ ch | BoxN _ ch _ => ch
  end.

(** what is left of a node when its children are taken away *)
Inductive label :=
| LTok (t : token) | LCall (agg : bool) (nhead : nat) (missing : bool) (op : Z)
| LErr (e : syntax_error) | LOp (k : opkind) (op : Z) | LBox (kind : Z) (src : span)
| LCode (first second : list Z) (src : span).

Definition label_of (n : cst) : label :=
  match n with
  | Tok t => LTok t
  | Call (Concrete l) m op _ => LCall false (length l) m op
  | Call (Aggregate _) m op _ => LCall true 1 m op
  | SynErr e _ => LErr e
  | Op k op _ => LOp k op
  | BoxN b _ src => LBox b src
  | CodeN a b src => LCode a b src
  end.

(** all the nodes of a tree: a node, then everything below it, from left to right *)
Inductive preorder : cst -> list cst -> Prop :=
| preorder_node : forall n ls, Forall2 preorder (children n) ls -> preorder n (n :: concat ls).

(** how many nodes lie on the longest way down *)
Inductive depth_at_most : nat -> cst -> Prop :=
| depth_node : forall d n, Forall (depth_at_most d) (children n) -> depth_at_most (S d) n.

(** the tokens of a tree, from left to right *)
Inductive tokens_of : cst -> list token -> Prop :=
| tokens_tok : forall t, tokens_of (Tok t) [t]
| tokens_node : forall n ls, (forall t, n <> Tok t) ->
    Forall2 tokens_of (children n) ls -> tokens_of n (concat ls).

(** white space, line breaks and comments *)
Definition trivia_token (t : token) : bool :=
  existsb (Z.eqb (t_kind t))
    [TK_Whitespace; TK_Boxes_MultiWhitespace; TK_InternalNewline; TK_ToplevelNewline; TK_Comment].

(** a node that stands for nothing but trivia *)
Definition trivia_node (n : cst) : Prop :=
  match n with
  | Tok t => trivia_token t = true
  | Op KGroup op _ => op = GOP_Token_Comment
  | _ => False
  end.

(** [n'] is [n] without its trivia: at every node the non-trivia children are kept, in
    order and each trimmed in turn; labels do not change, except that the head of a call,
    being one node now, is marked as aggregated *)
Inductive trimmed : cst -> cst -> Prop :=
| trimmed_node : forall n n', ~ trivia_node n ->
    (forall h m op body, n <> Call h m op body) ->
    label_of n' = label_of n ->
    trimmed_seq (children n) (children n') -> trimmed n n'
| trimmed_call : forall l h m op body body',
    trimmed_seq l [h] -> trimmed_seq body body' ->
    trimmed (Call (Concrete l) m op body) (Call (Aggregate h) m op body')
with trimmed_seq : list cst -> list cst -> Prop :=
| trimmed_nil : trimmed_seq [] []
| trimmed_drop : forall n l l', trivia_node n -> trimmed_seq l l' -> trimmed_seq (n :: l) l'
| trimmed_keep : forall n n' l l', trimmed n n' -> trimmed_seq l l' -> trimmed_seq (n :: l) (n' :: l').

(** no group in the tree stands for a comment (they arise only from boxes) *)
Definition no_comment_groups (n : cst) : Prop :=
  forall ns, preorder n ns -> forall ch, ~ In (Op KGroup GOP_Token_Comment ch) ns.

(** every call has a concrete head in which exactly one node is not trivia *)
Definition heads_ok (n : cst) : Prop :=
  forall ns, preorder n ns -> forall h m op body, In (Call h m op body) ns ->
    exists a x b, h = Concrete (a ++ x :: b) /\ ~ trivia_node x /\
      Forall trivia_node a /\ Forall trivia_node b.

(** the children of a node follow each other in the source *)
Inductive in_a_row : loc -> list token -> loc -> Prop :=
| row_nil : forall l, in_a_row l [] l
| row_cons : forall l t r e,
    sp_start (t_src t) = l -> loc_leb l (sp_end (t_src t)) = Some true ->
    in_a_row (sp_end (t_src t)) r e -> in_a_row l (t :: r) e.

(** every node that is not a token has a child, every call also a node for its head,
    and there are no nodes with a source of their own *)
Inductive solid : cst -> Prop :=
| solid_tok : forall t, solid (Tok t)
| solid_call : forall h m op body, head_nodes h <> [] -> body <> [] ->
    Forall solid (head_nodes h) -> Forall solid body -> solid (Call h m op body)
| solid_err : forall e ch, ch <> [] -> Forall solid ch -> solid (SynErr e ch)
| solid_op : forall k op ch, ch <> [] -> Forall solid ch -> solid (Op k op ch).
