(** What is on a link, what the documented forms of trees, issues and containers are, and
    what can be told from them: the specification for C57 and C58. *)
From Coq Require Import String.
From Coq Require Import ZArith List Bool.
From Verif Require Import Base Source GenTokenKind TokenKind LongNames Cst Ast Utils BoxPosition Link.
Import ListNotations.
Local Open Scope string_scope.
Local Open Scope list_scope.
Local Open Scope Z_scope.

(** ** One expression

    A head and a number of arguments are followed by that many expressions. *)
Inductive denotes : list packet -> expr -> Prop :=
| d_sym : forall s, denotes [PSym s] (ESym s)
| d_str : forall s, denotes [PStr s] (EStr s)
| d_int : forall n, denotes [PInt n] (EInt n)
| d_real : forall n, denotes [PReal n] (EReal n)
| d_expr : forall e, denotes [PExpr e] e
| d_fun : forall h n ps es, denotes_all ps es -> length es = n -> denotes (PFun h n :: ps) (ENormal (ESym h) es)
with denotes_all : list packet -> list expr -> Prop :=
| d_nil : denotes_all [] []
| d_cons : forall p e ps es, denotes p e -> denotes_all ps es -> denotes_all (p ++ ps) (e :: es).

(** ** Forms *)

Definition fn (h : string) (args : list expr) : expr := ENormal (ESym h) args.
Definition ints (l : list Z) : expr := fn "System`List" (map EInt l).
Definition str (s : string) : expr := EStr (bytes_of_string s).
Definition rule (k v : expr) : expr := fn "System`Rule" [k; v].

(** A position: [{{line, column}, {line, column}}], [{first, last}] (character indexes, the
    last one included: the index before the end, as 32 bits), the position of a box. *)
Inductive position_form : wsource -> expr -> Prop :=
| pf_lines : forall a b c d, position_form (SSpan (mkspan (LineCol a b) (LineCol c d))) (fn "System`List" [ints [a; b]; ints [c; d]])
| pf_chars : forall a b, b <> 0 -> position_form (SSpan (mkspan (CharIdx a) (CharIdx b))) (ints [a; b - 1])
| pf_chars_0 : forall a, position_form (SSpan (mkspan (CharIdx a) (CharIdx 0))) (ints [a; 2 ^ 32 - 1])
| pf_at : forall l, position_form (SBox (BAt l)) (ints l)
| pf_spanning : forall l a b, position_form (SBox (BSpanning l (a, b))) (fn "System`List" (map EInt l ++ [fn "System`Span" [EInt a; EInt b]]))
| pf_before : forall l, position_form (SBox (BBefore l)) (fn "System`Before" [ints l])
| pf_after : forall l, position_form (SBox (BAfter l)) (fn "System`After" [ints l]).

(** [<| Source -> position |>], or [<||>] for an unknown position and, in compatibility mode,
    for a box position that ends in a span. *)
Definition hidden (compat : bool) (s : wsource) : Prop :=
  s = SUnknown \/ compat = true /\ exists l p, s = SBox (BSpanning l p).
Inductive rule_form (compat : bool) (s : wsource) : list expr -> Prop :=
| rf_hidden : hidden compat s -> rule_form compat s []
| rf_shown : forall p, ~ hidden compat s -> position_form s p -> rule_form compat s [rule (ESym "CodeParser`Source") p].
Definition source_form (compat : bool) (s : wsource) (e : expr) : Prop :=
  exists rs, rule_form compat s rs /\ e = fn "System`Association" rs.

(** *** Concrete syntax trees *)

(** The source of what is between two sources, and the source of a node: that of what is
    between its first and its last child. *)
Inductive enclosing : wsource -> wsource -> wsource -> Prop :=
| en_unknown_l : forall b, enclosing SUnknown b SUnknown
| en_unknown_r : forall a, enclosing a SUnknown SUnknown
| en_span : forall a b, loc_leb (sp_start a) (sp_start b) = Some true -> loc_leb (sp_start a) (sp_end b) = Some true ->
    enclosing (SSpan a) (SSpan b) (SSpan (mkspan (sp_start a) (sp_end b)))
| en_box : forall a b p, BoxPosition.between a b = Ok (Some p) -> enclosing (SBox a) (SBox b) (SBox p)
| en_box_unknown : forall a b, BoxPosition.between a b = Ok None -> enclosing (SBox a) (SBox b) SUnknown.
Inductive extent : node -> wsource -> Prop :=
| ex_token : forall k t s, extent (NTok k t s) s
| ex_box : forall k ch s, extent (NBox k ch s) s
| ex_code : forall a b s, extent (NCode a b s) s
| ex_op : forall k op ch s, extents ch s -> extent (NOp k op ch) s
| ex_error : forall e ch s, extents ch s -> extent (NSynErr e ch) s
| ex_call : forall n l m op body a b s, extent n a -> extents body b -> enclosing a b s -> extent (NCall (Concrete (n :: l)) m op body) s
| ex_call_aggregate : forall n m op body a b s, extent n a -> extents body b -> enclosing a b s -> extent (NCall (Aggregate n) m op body) s
with extents : list node -> wsource -> Prop :=
| ex_one : forall n a s, extent n a -> enclosing a a s -> extents [n] s
| ex_more : forall n l m a b s, extent n a -> extent m b -> enclosing a b s -> extents (n :: l ++ [m]) s.

Definition node_head (k : opkind) : string :=
  match k with
  | KInfix => "CodeParser`InfixNode" | KPrefix => "CodeParser`PrefixNode" | KPostfix => "CodeParser`PostfixNode"
  | KBinary => "CodeParser`BinaryNode" | KTernary => "CodeParser`TernaryNode" | KPrefixBinary => "CodeParser`PrefixBinaryNode"
  | KCompound => "CodeParser`CompoundNode" | KGroup => "CodeParser`GroupNode"
  | KGroupMissingCloser => "CodeParser`GroupMissingCloserNode" | KGroupMissingOpener => "CodeParser`GroupMissingOpenerNode"
  end.
Definition error_symbol (e : syntax_error) : string :=
  match e with
  | ExpectedTilde => "SyntaxError`ExpectedTilde" | ExpectedSymbol => "SyntaxError`ExpectedSymbol" | ExpectedSet => "SyntaxError`ExpectedSet"
  end.
Definition box_symbol (k : box_kind) (s : string) : Prop :=
  match k with BNamed n => s = ("System`" ++ n)%string | BOther ctx n => s = (ctx ++ n)%string /\ ctx = "System`" end.

(** [ab]: whether there were aborts.  An abort leaves [$Aborted] in the place of an element
    of a list of nodes. *)
Inductive node_form (compat ab : bool) : node -> expr -> Prop :=
| nf_token : forall k t src ks m, tk_to_symbol k = Some ks -> source_form compat src m ->
    node_form compat ab (NTok k t src) (fn (if isError k then "CodeParser`ErrorNode" else "CodeParser`LeafNode") [ESym ks; EStr t; m])
| nf_op : forall k op ch os es src m, op_to_symbol (family_of k) op = Some os -> seq_form compat ab ch es -> extents ch src -> source_form compat src m ->
    node_form compat ab (NOp k op ch) (fn (node_head k) [ESym os; es; m])
| nf_error : forall e ch es src m, seq_form compat ab ch es -> extents ch src -> source_form compat src m ->
    node_form compat ab (NSynErr e ch) (fn "CodeParser`SyntaxErrorNode" [ESym (error_symbol e); es; m])
| nf_box : forall k ch src s es m, box_symbol k s -> seq_form compat ab ch es -> source_form compat src m ->
    node_form compat ab (NBox k ch src) (fn "CodeParser`BoxNode" [ESym s; es; m])
| nf_code : forall a b src m, source_form compat src m -> node_form compat ab (NCode a b src) (fn "CodeParser`CodeNode" [a; b; m])
| nf_call : forall h miss op body eh eb src m, head_form compat ab h eh -> body_form compat ab miss op body eb ->
    extent (NCall h miss op body) src -> source_form compat src m ->
    node_form compat ab (NCall h miss op body) (fn "CodeParser`CallNode" [eh; eb; m])
with head_form (compat ab : bool) : callhead node -> expr -> Prop :=
| hf_concrete : forall l e, seq_form compat ab l e -> head_form compat ab (Concrete l) e
| hf_aggregate : forall n e, node_form compat ab n e -> head_form compat ab (Aggregate n) e
with body_form (compat ab : bool) : bool -> Z -> list node -> expr -> Prop :=
| bf : forall (miss : bool) op ch os es src m, op_to_symbol call_family op = Some os -> seq_form compat ab ch es -> extents ch src -> source_form compat src m ->
    body_form compat ab miss op ch (fn (if miss then "CodeParser`GroupMissingCloserNode" else "CodeParser`GroupNode") [ESym os; es; m])
with seq_form (compat ab : bool) : list node -> expr -> Prop :=
| sf : forall l es, elements_form compat ab l es -> seq_form compat ab l (fn "System`List" es)
with elements_form (compat ab : bool) : list node -> list expr -> Prop :=
| ef_nil : elements_form compat ab [] []
| ef_node : forall n e l es, node_form compat ab n e -> elements_form compat ab l es -> elements_form compat ab (n :: l) (e :: es)
| ef_abort : forall n l es, ab = true -> elements_form compat ab l es -> elements_form compat ab (n :: l) (ESym "System`$Aborted" :: es).

(** *** Issues *)

Definition unless_empty {A} (l : list A) (e : expr) : list expr := match l with [] => [] | _ => [e] end.

Definition action_text (k : action_kind) : string * list expr :=
  match k with
  | ReplaceText t => ("CodeParser`ReplaceText", [rule (str "ReplacementText") (EStr t)])
  | InsertText t => ("CodeParser`InsertText", [rule (str "InsertionText") (EStr t)])
  | DeleteText => ("CodeParser`DeleteText", [])
  end.
Inductive action_form (compat : bool) : action -> expr -> Prop :=
| af : forall a m, source_form compat (SSpan (ac_src a)) m ->
    action_form compat a (fn "CodeParser`CodeAction" [EStr (ac_label a); ESym (fst (action_text (ac_kind a))); fn "System`Association" (m :: snd (action_text (ac_kind a)))]).

Inductive issue_form (compat : bool) : wissue -> expr -> Prop :=
| if_ : forall i m acts more, source_form compat (wi_src i) m -> Forall2 (action_form compat) (wi_actions i) acts -> Forall2 position_form (wi_more i) more ->
    issue_form compat i
      (fn (wi_make i)
         [str (tag_as_str (wi_tag i)); EStr (wi_msg i); str (severity_as_str (wi_sev i));
          fn "System`Association"
            ([m; rule (ESym "System`ConfidenceLevel") (EReal (wi_val i))]
             ++ unless_empty (wi_actions i) (rule (ESym "CodeParser`CodeActions") (fn "System`List" acts))
             ++ unless_empty (wi_descs i) (rule (str "AdditionalDescriptions") (fn "System`List" (map EStr (wi_descs i))))
             ++ unless_empty (wi_more i) (rule (str "AdditionalSources") (fn "System`List" more)))]).

(** *** Containers *)

Definition number_form (n : number) : expr := match n with NumI n => EInt n | NumR n => EReal n end.
Definition given {A} (o : option A) (f : A -> expr) : list expr := match o with Some a => [f a] | None => [] end.

(** The confidence level comes without a rule. *)
Inductive meta_form (compat : bool) : wmeta -> expr -> Prop :=
| mf : forall m src issues actions, rule_form compat (md_source m) src ->
    Forall2 (issue_form compat) (match md_issues m with Some l => l | None => [] end) issues ->
    Forall2 (action_form compat) (match md_actions m with Some l => l | None => [] end) actions ->
    meta_form compat m
      (fn "System`Association"
         (given (md_issues m) (fun _ => rule (ESym "CodeParser`SyntaxIssues") (fn "System`List" issues))
          ++ given (md_tabs m) (rule (str "EmbeddedTabs")) ++ given (md_newlines m) (rule (str "EmbeddedNewlines"))
          ++ given (md_simple m) (rule (str "SimpleLineContinuations")) ++ given (md_complex m) (rule (str "ComplexLineContinuations"))
          ++ src
          ++ given (md_conf m) number_form
          ++ given (md_actions m) (fun _ => rule (ESym "CodeParser`CodeActions") (fn "System`List" actions))
          ++ given (md_descs m) (fun l => rule (str "AdditionalDescriptions") (fn "System`List" (map EStr l)))
          ++ given (md_file m) (rule (str "FileName")))).

Definition kind_symbol (k : container_kind) : string :=
  "System`" ++ match k with CString => "String" | CFile => "File" | CByte => "Byte" | CBox => "Box" | CCell => "Cell" | CHold => "Hold" end.
Definition missing_form (r : missing) : expr :=
  fn "System`Missing" [str (match r with EmptyInput => "EmptyInput" | UnsafeEncoding u => "UnsafeCharacterEncoding_" ++ unsafe_as_str u end)].
Inductive container_form (compat ab : bool) : container node -> expr -> Prop :=
| cf_nodes : forall k l es m em, seq_form compat ab l es -> meta_form compat m em ->
    container_form compat ab (mk_container k (Nodes l) m) (fn "CodeParser`ContainerNode" [ESym (kind_symbol k); es; em])
| cf_missing : forall k r m em, meta_form compat m em ->
    container_form compat ab (mk_container k (Missing r) m) (fn "CodeParser`ContainerNode" [ESym (kind_symbol k); fn "System`List" [missing_form r]; em]).

(** *** Results of parsing: the trees or the encoding that is unsafe; the fatal issues or, if
    there are none, the others; the places of line continuations, newlines and tabs *)
Definition place_form (l : loc) : expr := match l with LineCol a b => ints [a; b] | CharIdx i => ints [0; i] end.
Inductive result_form (compat ab : bool) (r : parse_result node) : expr -> Prop :=
| rf : forall es issues s x n t, 
    match r_unsafe r with None => seq_form compat ab (r_syntax r) es | Some u => es = fn "System`List" [missing_form (UnsafeEncoding u)] end ->
    Forall2 (issue_form compat) (match r_fatal r with [] => r_nonfatal r | l => l end) issues ->
    r_tracked r = (s, x, n, t) ->
    result_form compat ab r (fn "System`List" (es :: fn "System`List" issues :: map (fun l => fn "System`List" (map place_form l)) [s; x; n; t])).

(** *** Abstract syntax trees *)
Definition abstract_error_symbol (e : abstract_error) : string :=
  "AbstractSyntaxError`" ++ match e with
  | CommaTopLevel => "CommaTopLevel" | OpenParen => "OpenParen" | OpenSquare => "OpenSquare" | ColonColonOpenSquare => "ColonColonOpenSquare"
  | LeftDoubleBracket => "LeftDoubleBracket" | NonAssociativePatternTest => "NonAssociativePatternTest" | LinearSyntaxBang => "LinearSyntaxBang"
  | AExpectedTilde => "ExpectedTilde"
  end.
Inductive ameta_form (compat : bool) (fl : filling) : ameta -> expr -> Prop :=
| amf : forall m src issues, rule_form compat (of_asource (m_src m)) src -> Forall2 (issue_form compat) (map (of_aissue fl) (m_issues m)) issues ->
    ameta_form compat fl m
      (fn "System`Association" (src ++ unless_empty (m_issues m) (rule (ESym "CodeParser`AbstractSyntaxIssues") (fn "System`List" issues)))).

Inductive ast_form (compat : bool) (fl : filling) : ast -> expr -> Prop :=
| asf_leaf : forall k t d ks m, tk_to_symbol k = Some ks -> ameta_form compat fl d m ->
    ast_form compat fl (ALeaf k t d) (fn "CodeParser`LeafNode" [ESym ks; EStr t; m])
| asf_error : forall k t d ks m, tk_to_symbol k = Some ks -> ameta_form compat fl d m ->
    ast_form compat fl (AError k t d) (fn "CodeParser`ErrorNode" [ESym ks; EStr t; m])
| asf_call : forall h l d eh es m, ast_form compat fl h eh -> asts_form compat fl l es -> ameta_form compat fl d m ->
    ast_form compat fl (ACall h l d) (fn "CodeParser`CallNode" [eh; fn "System`List" es; m])
| asf_call_missing : forall h l d eh es m, ast_form compat fl h eh -> asts_form compat fl l es -> ameta_form compat fl d m ->
    ast_form compat fl (ACallMissingCloser h l d) (fn "CodeParser`CallMissingCloserNode" [eh; fn "System`List" es; m])
| asf_syntax_error : forall e l d es m, asts_form compat fl l es -> ameta_form compat fl d m ->
    ast_form compat fl (ASyntaxError e l d) (fn "CodeParser`SyntaxErrorNode" [ESym (error_symbol e); fn "System`List" es; m])
| asf_abstract_error : forall e l d es m, asts_form compat fl l es -> ameta_form compat fl d m ->
    ast_form compat fl (AAbstractSyntaxError e l d) (fn "CodeParser`AbstractSyntaxErrorNode" [ESym (abstract_error_symbol e); fn "System`List" es; m])
| asf_box : forall k l d s es m, box_symbol (fl_box fl k) s -> asts_form compat fl l es -> ameta_form compat fl d m ->
    ast_form compat fl (ABox k l d) (fn "CodeParser`BoxNode" [ESym s; fn "System`List" es; m])
| asf_code : forall a b d m, ameta_form compat fl d m -> ast_form compat fl (ACode a b d) (fn "CodeParser`CodeNode" [fl_code fl a; fl_code fl b; m])
| asf_group : forall k o b c d os es m, op_to_symbol (family_of KGroup) k = Some os -> asts_form compat fl [o; b; c] es -> ameta_form compat fl d m ->
    ast_form compat fl (AGroup k o b c d) (fn "CodeParser`GroupNode" [ESym os; fn "System`List" es; m])
| asf_group_missing_closer : forall k l d os es m, op_to_symbol (family_of KGroup) k = Some os -> asts_form compat fl l es -> ameta_form compat fl d m ->
    ast_form compat fl (AGroupMissingCloser k l d) (fn "CodeParser`GroupMissingCloserNode" [ESym os; fn "System`List" es; m])
| asf_group_missing_opener : forall k l d os es m, op_to_symbol (family_of KGroup) k = Some os -> asts_form compat fl l es -> ameta_form compat fl d m ->
    ast_form compat fl (AGroupMissingOpener k l d) (fn "CodeParser`GroupMissingOpenerNode" [ESym os; fn "System`List" es; m])
| asf_tag_box : forall o b c src a1 a2 tsrc d es m1 m2 m3, asts_form compat fl [o; b; c] es -> source_form compat (of_asource src) m1 ->
    source_form compat (of_asource tsrc) m2 -> ameta_form compat fl d m3 ->
    ast_form compat fl (ATagBoxGroupParen o b c src a1 a2 tsrc d)
      (fn "CodeParser`BoxNode"
         [ESym "System`TagBox";
          fn "System`List" [fn "CodeParser`GroupNode" [ESym "CodeParser`GroupParen"; fn "System`List" es; m1]; fn "CodeParser`CodeNode" [fl_code fl a1; fl_code fl a2; m2]];
          m3])
| asf_linear_bang : forall x y d es m, asts_form compat fl [x; y] es -> ameta_form compat fl d m ->
    ast_form compat fl (APrefixLinearSyntaxBang x y d) (fn "CodeParser`PrefixNode" [ESym "CodeParser`PrefixLinearSyntaxBang"; fn "System`List" es; m])
with asts_form (compat : bool) (fl : filling) : list ast -> list expr -> Prop :=
| asf_nil : asts_form compat fl [] []
| asf_cons : forall a e l es, ast_form compat fl a e -> asts_form compat fl l es -> asts_form compat fl (a :: l) (e :: es).

(** ** Reading back *)

(** Positions that can be told from what is shown of them, in a container for text and in one
    for boxes. *)
Definition u32 (z : Z) : Prop := 0 <= z < 2 ^ 32.
Inductive text_position : wsource -> Prop :=
| tp_unknown : text_position SUnknown
| tp_lines : forall a b c d, 1 <= a -> 1 <= b -> 1 <= c -> 1 <= d -> u32 a -> u32 b -> u32 c -> u32 d -> a < c \/ a = c /\ b <= d ->
    text_position (SSpan (mkspan (LineCol a b) (LineCol c d)))
| tp_chars : forall a b, u32 a -> 1 <= b -> u32 b -> text_position (SSpan (mkspan (CharIdx a) (CharIdx b))).
Inductive box_place : wsource -> Prop :=
| bp_unknown : box_place SUnknown
| bp_at : forall l, Forall (Z.le 0) l -> box_place (SBox (BAt l))
| bp_before : forall l, Forall (Z.le 0) l -> box_place (SBox (BBefore l))
| bp_after : forall l, Forall (Z.le 0) l -> box_place (SBox (BAfter l)).
Definition in_boxes (k : container_kind) : Prop := k = CBox \/ k = CCell.
Definition position_in (k : container_kind) (s : wsource) : Prop := (in_boxes k -> box_place s) /\ (~ in_boxes k -> text_position s).

(** Kinds of boxes that can be told apart *)
Definition plain_name (s : string) : Prop := has_tick s = false.
Definition box_readable (k : box_kind) : Prop :=
  match k with
  | BNamed s => In s BOX_NAMES
  | BOther ctx s => ctx = "System`" /\ plain_name s /\ ends_with "Box" s = true /\ ~ In s BOX_NAMES
  end.

(** Trees of boxes are read without checks, and in the mode in which spanning positions are left out. *)
Definition readable_mode (c : cfg) (k : container_kind) : Prop := ~ in_boxes k \/ compat c = true /\ strict c = false /\ asserts c = false.

Inductive readable (k : container_kind) : node -> Prop :=
| rd_token : forall tk t s, position_in k s -> readable k (NTok tk t s)
| rd_code : forall a b s, position_in k s -> readable k (NCode a b s)
| rd_box : forall b ch s, box_readable b -> position_in k s -> Forall (readable k) ch -> readable k (NBox b ch s)
| rd_error : forall e ch, Forall (readable k) ch -> readable k (NSynErr e ch)
| rd_op : forall kd op ch, Forall (readable k) ch -> readable k (NOp kd op ch)
| rd_concrete : forall l m op body, Forall (readable k) l -> Forall (readable k) body -> readable k (NCall (Concrete l) m op body)
| rd_aggregate : forall n m op body, readable k n -> Forall (readable k) body -> readable k (NCall (Aggregate n) m op body).

(** Two kinds of newlines share their symbol. *)
Definition newline_told (k : Z) : Z := if k =? TK_ToplevelNewline then TK_InternalNewline else k.
Fixpoint told (n : node) : node :=
  match n with
  | NTok k t s => NTok (newline_told k) t s
  | NCall h m op b => NCall (match h with Concrete l => Concrete (map told l) | Aggregate x => Aggregate (told x) end) m op (map told b)
  | NSynErr e ch => NSynErr e (map told ch)
  | NOp k op ch => NOp k op (map told ch)
  | NBox k ch s => NBox k (map told ch) s
  | NCode a b s => NCode a b s
  end.

(** Issues and metadata that can be read back: the spans of actions are not for boxes, and there is
    no way to read more sources or the confidence level of a container. *)
Definition action_readable (k : container_kind) (a : action) : Prop := ~ in_boxes k /\ text_position (SSpan (ac_src a)).
Definition issue_readable (k : container_kind) (i : wissue) : Prop :=
  In (wi_make i) ["CodeParser`SyntaxIssue"; "CodeParser`EncodingIssue"; "CodeParser`FormatIssue"] /\
  position_in k (wi_src i) /\ Forall (action_readable k) (wi_actions i) /\ wi_more i = [].
Definition meta_readable (k : container_kind) (m : wmeta) : Prop :=
  position_in k (md_source m) /\ md_conf m = None /\
  Forall (issue_readable k) (match md_issues m with Some l => l | None => [] end) /\
  Forall (action_readable k) (match md_actions m with Some l => l | None => [] end).
Definition container_readable (x : container node) : Prop :=
  match ct_body x with Nodes l => Forall (readable (ct_kind x)) l | Missing _ => True end /\ meta_readable (ct_kind x) (ct_meta x).
Definition container_told (x : container node) : container node :=
  mk_container (ct_kind x) (match ct_body x with Nodes l => Nodes (map told l) | Missing r => Missing r end) (ct_meta x).

(** The kernel makes one association of an association in an association. *)
Definition is_association (e : expr) : option (list expr) :=
  match e with ENormal (ESym s) l => if String.eqb s "System`Association" then Some l else None | _ => None end.
Fixpoint settled (e : expr) : expr :=
  match e with
  | ENormal h args =>
      let args' := map settled args in
      if match h with ESym s => String.eqb s "System`Association" | _ => false end
      then ENormal h (flat_map (fun a => match is_association a with Some l => l | None => [a] end) args')
      else ENormal (settled h) args'
  | _ => e
  end.
(** The expressions that are passed on as they are. *)
Inductive carries : node -> expr -> Prop :=
| ca_first : forall a b s, carries (NCode a b s) a
| ca_second : forall a b s, carries (NCode a b s) b
| ca_box : forall k ch s n e, In n ch -> carries n e -> carries (NBox k ch s) e
| ca_op : forall k op ch n e, In n ch -> carries n e -> carries (NOp k op ch) e
| ca_error : forall er ch n e, In n ch -> carries n e -> carries (NSynErr er ch) e
| ca_body : forall h m op ch n e, In n ch -> carries n e -> carries (NCall h m op ch) e
| ca_concrete : forall l m op ch n e, In n l -> carries n e -> carries (NCall (Concrete l) m op ch) e
| ca_aggregate : forall m op ch n e, carries n e -> carries (NCall (Aggregate n) m op ch) e.
Definition carried_by (x : container node) (e : expr) : Prop :=
  (exists l n, ct_body x = Nodes l /\ In n l /\ carries n e) \/
  In (Some e) [md_file (ct_meta x); md_tabs (ct_meta x); md_newlines (ct_meta x); md_simple (ct_meta x); md_complex (ct_meta x)].

(** ** Settings *)

Inductive setting := InfixBinaryAt | FlattenTimes | OldAtAtAt.
Definition setting_name (s : setting) : string := match s with InfixBinaryAt => "InfixBinaryAt" | FlattenTimes => "FlattenTimes" | OldAtAtAt => "OldAtAtAt" end.
Definition setting_rule (x : setting * expr) : expr := rule (str (setting_name (fst x))) (snd x).
(** The last rule for a setting counts; what is neither True nor False leaves the default. *)
Inductive says (default : bool) : expr -> bool -> Prop :=
| says_true : says default (ESym "System`True") true
| says_false : says default (ESym "System`False") false
| says_nothing : forall e, e <> ESym "System`True" -> e <> ESym "System`False" -> says default e default.
Inductive set_to (s : setting) (default : bool) : list (setting * expr) -> bool -> Prop :=
| set_by : forall l1 e l2 b, (forall x, In x l2 -> fst x <> s) -> says default e b -> set_to s default (l1 ++ (s, e) :: l2) b
| not_set : forall l, (forall x, In x l -> fst x <> s) -> set_to s default l default.
