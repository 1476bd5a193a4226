(** Trees with things at other places. *)
From Coq Require Import ZArith List.
From Verif Require Import Base Source Tokenizer Cst Ast.
Import ListNotations.
Local Open Scope Z_scope.

(** Every token is replaced by what [g] makes of it, and every other source by what [sg] does. *)
Section move.
  Variables (g : token -> token) (sg : span -> span).
  Fixpoint move (n : cst) : cst :=
    match n with
    | Tok t => Tok (g t)
    | Call (Concrete l) m op ch => Call (Concrete (map move l)) m op (map move ch)
    | Call (Aggregate h) m op ch => Call (Aggregate (move h)) m op (map move ch)
    | SynErr e ch => SynErr e (map move ch)
    | Op k op ch => Op k op (map move ch)
    | BoxN b ch src => BoxN b (map move ch) (sg src)
    | CodeN a b src => CodeN a b (sg src)
    end.
  Definition move_source (s : asource) : asource := match s with Known s => Known (sg s) | Unknown => Unknown end.
  Definition move_issue (i : aissue) : aissue := mk_aissue (ai_tag i) (ai_sev i) (move_source (ai_src i)) (ai_conf i) (map move_source (ai_more i)).
  Definition move_meta (d : ameta) : ameta := mk_ameta (move_source (m_src d)) (map move_issue (m_issues d)).
  Fixpoint move_ast (a : ast) : ast :=
    match a with
    | ALeaf k s d => ALeaf k s (move_meta d)
    | AError k s d => AError k s (move_meta d)
    | ACall h l d => ACall (move_ast h) (map move_ast l) (move_meta d)
    | ACallMissingCloser h l d => ACallMissingCloser (move_ast h) (map move_ast l) (move_meta d)
    | ASyntaxError e l d => ASyntaxError e (map move_ast l) (move_meta d)
    | AAbstractSyntaxError e l d => AAbstractSyntaxError e (map move_ast l) (move_meta d)
    | ABox k l d => ABox k (map move_ast l) (move_meta d)
    | ACode x y d => ACode x y (move_meta d)
    | AGroup k x b c d => AGroup k (move_ast x) (move_ast b) (move_ast c) (move_meta d)
    | AGroupMissingCloser k l d => AGroupMissingCloser k (map move_ast l) (move_meta d)
    | AGroupMissingOpener k l d => AGroupMissingOpener k (map move_ast l) (move_meta d)
    | ATagBoxGroupParen x b c s f1 f2 ts d => ATagBoxGroupParen (move_ast x) (move_ast b) (move_ast c) (move_source s) f1 f2 (move_source ts) (move_meta d)
    | APrefixLinearSyntaxBang x b d => APrefixLinearSyntaxBang (move_ast x) (move_ast b) (move_meta d)
    end.
End move.

(** ** Everything at the same place *)
Definition nowhere : span := mkspan (LineCol 1 1) (LineCol 1 1).
Definition unplaced (t : token) : token := mktok (t_kind t) [] (t_text t) nowhere.
(** the tree and the abstract tree without their positions *)
Definition forget : cst -> cst := move unplaced (fun _ => nowhere).
Definition forget_ast : ast -> ast := move_ast (fun _ => nowhere).

(** ** Moving without changing the order *)
Definition in_order (h : loc -> loc) : Prop := forall a b, loc_leb (h a) (h b) = loc_leb a b.
Definition span_to (h : loc -> loc) (s : span) : span := mkspan (h (sp_start s)) (h (sp_end s)).
Definition token_to (h : loc -> loc) (t : token) : token := mktok (t_kind t) (t_start t) (t_text t) (span_to h (t_src t)).
Definition shift (h : loc -> loc) : cst -> cst := move (token_to h) (span_to h).
Definition shift_ast (h : loc -> loc) : ast -> ast := move_ast (span_to h).
