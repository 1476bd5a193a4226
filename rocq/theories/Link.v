(** Trees on a link to the kernel: codeparser-wll/src/convert_wstp.rs (the trait [WstpPut])
    and codeparser-wll/src/from_expr.rs (the trait [FromExpr]).
    Simplifications: a link is the sequence of what is put on it; the [unwrap] of a put, which
    panics when the link itself fails, is left out; a floating-point number is a number of
    hundredths; the texts of errors are left out ([None] is [Err(_)]). *)
From Coq Require Import String Ascii.
From Coq Require Import ZArith List Bool.
From Verif Require Import Base Source GenTokenKind GenOps GenSymbols TokenKind LongNames Tokenizer Iter Cst Ast Utils BoxPosition.
Import ListNotations.
Local Open Scope string_scope.
Local Open Scope list_scope.
Local Open Scope Z_scope.

Local Notation "x <~ e ;; k" := (rbind e (fun x => k)) (at level 61, e at next level, right associativity).
Local Notation "' p <~ e ;; k" := (rbind e (fun x => match x with p => k end)) (at level 61, p pattern, e at next level, right associativity).

Fixpoint string_of_bytes (l : list Z) : string :=
  match l with [] => EmptyString | b :: r => String (Ascii.ascii_of_nat (Z.to_nat b)) (string_of_bytes r) end.

(** wolfram_expr's [Expr], [ExprKind] *)
Inductive expr :=
| ESym (s : string)
| EStr (s : list Z)
| EInt (n : Z)
| EReal (n : Z)
| ENormal (h : expr) (args : list expr).

(** what is put on a link: [put_function] (head, number of arguments), [put_symbol],
    [put_str], [put_i64], [put_f64], [put_expr] *)
Inductive packet :=
| PFun (h : string) (n : nat)
| PSym (s : string)
| PStr (s : list Z)
| PInt (n : Z)
| PReal (n : Z)
| PExpr (e : expr).

(** ** Data *)

(** source.rs 376-381 [Source]; a [Span] is put in the same way as [Source::Span]
    (convert_wstp.rs 1115-1141) *)
Inductive wsource := SSpan (s : span) | SBox (p : box_position) | SUnknown.

(** cst.rs 86-105 [BoxKind]: the kinds with a name of their own, or another symbol *)
Inductive box_kind := BNamed (s : string) | BOther (context name : string).
Definition BOX_NAMES : list string :=
  ["TagBox"; "SuperscriptBox"; "RowBox"; "GridBox"; "TemplateBox"; "InterpretationBox"; "SubscriptBox"; "StyleBox";
   "NamespaceBox"; "OverscriptBox"; "SubsuperscriptBox"; "GraphicsBox"].

(** cst.rs 50-84 [Cst] with owned or borrowed text and any kind of source *)
Inductive node :=
| NTok (kind : Z) (text : list Z) (src : wsource)
| NCall (head : callhead node) (missing : bool) (op : Z) (body : list node)
| NSynErr (err : syntax_error) (children : list node)
| NOp (k : opkind) (op : Z) (children : list node)
| NBox (kind : box_kind) (children : list node) (src : wsource)
| NCode (first second : expr) (src : wsource).

(** issue.rs 62-78 [CodeAction], [CodeActionKind] *)
Inductive action_kind := ReplaceText (t : list Z) | InsertText (t : list Z) | DeleteText.
Record action := mk_action { ac_label : list Z; ac_kind : action_kind; ac_src : span }.

(** issue.rs 13-24 [Issue] *)
Record wissue := mk_wissue {
  wi_make : string; wi_tag : issue_tag; wi_msg : list Z; wi_sev : severity; wi_src : wsource; wi_val : Z;
  wi_actions : list action; wi_descs : list (list Z); wi_more : list wsource }.

(** wolfram_expr's [Number] *)
Inductive number := NumI (n : Z) | NumR (n : Z).

(** lib.rs 184-196 [Metadata] *)
Record wmeta := mk_wmeta {
  md_source : wsource; md_issues : option (list wissue); md_conf : option number; md_actions : option (list action);
  md_descs : option (list (list Z)); md_file : option expr; md_tabs : option expr; md_newlines : option expr;
  md_simple : option expr; md_complex : option expr }.

(** lib.rs 152-181 [Container], [ContainerKind], [ContainerBody], [ContainerMissingReason] *)
Inductive container_kind := CString | CFile | CByte | CBox | CCell | CHold.
Inductive missing := EmptyInput | UnsafeEncoding (u : unsafe_encoding).
Inductive container_body (N : Type) := Nodes (l : list N) | Missing (r : missing).
Arguments Nodes {N} _.
Arguments Missing {N} _.
Record container (N : Type) := mk_container { ct_kind : container_kind; ct_body : container_body N; ct_meta : wmeta }.
Arguments mk_container {N} _ _ _.
Arguments ct_kind {N} _.
Arguments ct_body {N} _.
Arguments ct_meta {N} _.

(** lib.rs 262-276 [ParseResult], with a sequence of nodes as its syntax; the four sets of
    tracked locations (tokenizer.rs 430-444 [to_nodes]) in the order a loop meets them *)
Record parse_result (N : Type) := mk_result {
  r_syntax : list N; r_unsafe : option unsafe_encoding; r_fatal : list wissue; r_nonfatal : list wissue;
  r_tracked : list loc * list loc * list loc * list loc }.
Arguments mk_result {N} _ _ _ _ _.
Arguments r_syntax {N} _.
Arguments r_unsafe {N} _.
Arguments r_fatal {N} _.
Arguments r_nonfatal {N} _.
Arguments r_tracked {N} _.

(** lib.rs (codeparser-wll) 1104-1132 [compatibility_mode], [codeparser_debug]; whether debug
    assertions and overflow checks are compiled in *)
Record cfg := mk_cfg { compat : bool; strict : bool; asserts : bool }.

(** ** Sources *)

(** token.rs 67-84 [TokenSource::between] for [Source] *)
Definition source_between (a b : wsource) : res wsource :=
  match a, b with
  | SUnknown, _ | _, SUnknown => Ok SUnknown
  | SSpan a, SSpan b => rmap SSpan (span_between a b)
  | SBox a, SBox b => r <~ BoxPosition.between a b ;; Ok (match r with Some p => SBox p | None => SUnknown end)
  | _, _ => Panic
  end.

(** cst.rs 337-347 [CstSeq::get_source] *)
Definition sources_span (l : list (res wsource)) : res wsource :=
  match l with
  | [] => Panic
  | a :: _ => a <~ a ;; b <~ last l Panic ;; source_between a b
  end.

(** cst.rs 439-458 [Cst::get_source], 737-745 [CallNode::get_source] *)
Fixpoint node_source (n : node) : res wsource :=
  match n with
  | NTok _ _ s => Ok s
  | NCall h _ _ body =>
      a <~ match h with
           | Concrete l => match l with [] => Panic | x :: _ => node_source x end
           | Aggregate x => node_source x
           end ;;
      b <~ sources_span (map node_source body) ;; source_between a b
  | NSynErr _ ch => sources_span (map node_source ch)
  | NOp _ _ ch => sources_span (map node_source ch)
  | NBox _ _ s => Ok s
  | NCode _ _ s => Ok s
  end.

(** ** Putting *)

(** What is put, and the answers of [abortQ] (lib.rs 1188-1190) that are still to come; when
    none are left there is no abort. *)
Definition W := list bool -> res (list packet * list bool).
Definition wdo (l : list packet) : W := fun q => Ok (l, q).
Definition wpanic : W := fun _ => Panic.
Definition wseq (a b : W) : W := fun q => '(p1, q) <~ a q ;; '(p2, q) <~ b q ;; Ok (p1 ++ p2, q).
Definition wlift {A} (r : res A) (k : A -> W) : W := fun q => a <~ r ;; k a q.
Fixpoint wall (l : list W) : W := match l with [] => wdo [] | a :: r => wseq a (wall r) end.
Definition wopt {A} (o : option A) (f : A -> W) : W := match o with Some a => f a | None => wdo [] end.

Local Notation "a ;+ b" := (wseq a b) (at level 62, right associativity).

(** convert_wstp.rs 996-1014 [include_source] *)
Definition include_source (c : cfg) (s : wsource) : bool :=
  match s with
  | SUnknown => false
  | SBox (BSpanning _ _) => negb (compat c)
  | _ => true
  end.

(** convert_wstp.rs 979-994 [Location::put] *)
Definition put_loc (l : loc) : list packet :=
  let '(a, b) := match l with LineCol a b => (a, b) | CharIdx i => (0, i) end in
  [PFun "System`List" 2; PInt a; PInt b].

(** convert_wstp.rs 1035-1053 [put_span_rhs]; the indexes are [u32]: 0 - 1 panics or wraps *)
Definition put_span_rhs (c : cfg) (s : span) : W :=
  match s with
  | mkspan (LineCol _ _ as a) (LineCol _ _ as b) => wdo (PFun "System`List" 2 :: put_loc a ++ put_loc b)
  | mkspan (CharIdx a) (CharIdx b) =>
      if b =? 0 then if asserts c then wpanic else wdo [PFun "System`List" 2; PInt a; PInt (2 ^ 32 - 1)]
      else wdo [PFun "System`List" 2; PInt a; PInt (b - 1)]
  | _ => wpanic
  end.

(** [i64::try_from(usize).expect(..)] *)
Definition put_index (i : Z) : W := if i <? 2 ^ 63 then wdo [PInt i] else wpanic.

(** convert_wstp.rs 1055-1113 [put_box_position] *)
Definition put_box_position (p : box_position) : W :=
  match p with
  | BAt l => wdo [PFun "System`List" (length l)] ;+ wall (map put_index l)
  | BSpanning l (a, b) =>
      if (2 ^ 63 <=? a) || (2 ^ 63 <=? b) then wpanic
      else wdo [PFun "System`List" (length l + 1)] ;+ wall (map put_index l) ;+ wdo [PFun "System`Span" 2; PInt a; PInt b]
  | BBefore l => wdo [PFun "System`Before" 1; PFun "System`List" (length l)] ;+ wall (map put_index l)
  | BAfter l => wdo [PFun "System`After" 1; PFun "System`List" (length l)] ;+ wall (map put_index l)
  end.

(** convert_wstp.rs 1016-1033 [put_source_rhs] *)
Definition put_source_rhs (c : cfg) (s : wsource) : W :=
  match s with
  | SSpan s => put_span_rhs c s
  | SBox p => put_box_position p
  | SUnknown => wpanic
  end.

(** convert_wstp.rs 1115-1141 [Span::put], [Source::put] *)
Definition put_source (c : cfg) (s : wsource) : W :=
  if negb (include_source c s) then wdo [PFun "System`Association" 0]
  else wdo [PFun "System`Association" 1; PFun "System`Rule" 2; PSym "CodeParser`Source"] ;+ put_source_rhs c s.

(** token_kind.rs [to_symbol] *)
Definition put_kind (k : Z) : W := match tk_to_symbol k with Some s => wdo [PSym s] | None => wpanic end.

(** the operators of a kind of node (operators.rs) *)
Definition family_of (k : opkind) : family :=
  match k with
  | KPrefix => mkfamily PREOP_ALL PREOP_TO PREOP_FROM
  | KInfix => mkfamily IOP_ALL IOP_TO IOP_FROM
  | KPostfix => mkfamily POSTOP_ALL POSTOP_TO POSTOP_FROM
  | KBinary => mkfamily BOP_ALL BOP_TO BOP_FROM
  | KTernary => mkfamily TOP_ALL TOP_TO TOP_FROM
  | KPrefixBinary => mkfamily PBOP_ALL PBOP_TO PBOP_FROM
  | KCompound => mkfamily COP_ALL COP_TO COP_FROM
  | KGroup | KGroupMissingCloser | KGroupMissingOpener => mkfamily GOP_ALL GOP_TO GOP_FROM
  end.
Definition call_family : family := mkfamily CALLOP_ALL CALLOP_TO CALLOP_FROM.

(** convert_wstp.rs 683-735 *)
Definition put_operator (f : family) (op : Z) : W := match op_to_symbol f op with Some s => wdo [PSym s] | None => wpanic end.

(** the head of a kind of node: convert_wstp.rs 571-600 *)
Definition op_head (k : opkind) : string :=
  match k with
  | KPrefix => "CodeParser`PrefixNode"
  | KInfix => "CodeParser`InfixNode"
  | KPostfix => "CodeParser`PostfixNode"
  | KBinary => "CodeParser`BinaryNode"
  | KTernary => "CodeParser`TernaryNode"
  | KPrefixBinary => "CodeParser`PrefixBinaryNode"
  | KCompound => "CodeParser`CompoundNode"
  | KGroup => "CodeParser`GroupNode"
  | KGroupMissingCloser => "CodeParser`GroupMissingCloserNode"
  | KGroupMissingOpener => "CodeParser`GroupMissingOpenerNode"
  end.

(** convert_wstp.rs 551-555: the text of a token has to be UTF-8 *)
Definition put_text (t : list Z) : W := if utf8_valid t then wdo [PStr t] else wpanic.

(** convert_wstp.rs 529-559 [Token::put] *)
Definition put_token (c : cfg) (k : Z) (t : list Z) (s : wsource) : W :=
  wdo [PFun (if isError k then "CodeParser`ErrorNode" else "CodeParser`LeafNode") 3] ;+
  put_kind k ;+ put_text t ;+ put_source c s.

(** convert_wstp.rs 607-624 [NodeSeq::put] *)
Definition put_element (a : W) : W := fun q =>
  match q with
  | true :: q => Ok ([PSym "System`$Aborted"], q)
  | _ :: q => a q
  | [] => a []
  end.
Definition put_seq (l : list W) : W := wdo [PFun "System`List" (length l)] ;+ wall (map put_element l).

(** symbol.rs [symbol_name().ends_with("Box")] *)
Definition ends_with (p s : string) : bool :=
  prefix p (substring (String.length s - String.length p) (String.length p) s) && (String.length p <=? String.length s)%nat.

(** cst.rs 850-873 [BoxKind::as_str], convert_wstp.rs 642-651 [BoxKind::put] *)
Definition put_box_kind (c : cfg) (k : box_kind) : W :=
  match k with
  | BNamed s => if asserts c && negb (ends_with "Box" s) then wpanic else wdo [PSym ("System`" ++ s)]
  | BOther ctx s =>
      if negb (ctx =? "System`")%string then wpanic
      else if asserts c && negb (ends_with "Box" s) then wpanic else wdo [PSym ("System`" ++ s)]
  end.

(** cst.rs 826-834 [SyntaxErrorKind::to_symbol] *)
Definition syntax_error_name (e : syntax_error) : string :=
  match e with ExpectedSymbol => "ExpectedSymbol" | ExpectedSet => "ExpectedSet" | ExpectedTilde => "ExpectedTilde" end.
Definition syntax_error_symbol (e : syntax_error) : string := "SyntaxError`" ++ syntax_error_name e.

(** convert_wstp.rs 565-605 [Cst::put], 626-640 [BoxNode::put], 653-681 [CodeNode::put],
    [put_op], 737-792 [CallNode::put], [CallBody::put], [SyntaxErrorNode::put] *)
Fixpoint put_node (c : cfg) (n : node) : W :=
  match n with
  | NTok k t s => put_token c k t s
  | NCall h m op body =>
      wlift (node_source n) (fun src =>
      wdo [PFun "CodeParser`CallNode" 3] ;+
      match h with
      | Concrete l => put_seq (map (put_node c) l)
      | Aggregate x => put_node c x
      end ;+
      wlift (sources_span (map node_source body)) (fun bsrc =>
      wdo [PFun (op_head (if m then KGroupMissingCloser else KGroup)) 3] ;+
      put_operator call_family op ;+ put_seq (map (put_node c) body) ;+ put_source c bsrc) ;+
      put_source c src)
  | NSynErr e ch =>
      wdo [PFun "CodeParser`SyntaxErrorNode" 3; PSym (syntax_error_symbol e)] ;+
      put_seq (map (put_node c) ch) ;+
      wlift (sources_span (map node_source ch)) (put_source c)
  | NOp k op ch =>
      wlift (sources_span (map node_source ch)) (fun src =>
      wdo [PFun (op_head k) 3] ;+ put_operator (family_of k) op ;+ put_seq (map (put_node c) ch) ;+ put_source c src)
  | NBox k ch src =>
      wdo [PFun "CodeParser`BoxNode" 3] ;+ put_box_kind c k ;+ put_seq (map (put_node c) ch) ;+ put_source c src
  | NCode a b src =>
      wdo [PFun "CodeParser`CodeNode" 3; PExpr a; PExpr b] ;+ put_source c src
  end.
Definition put_nodes (c : cfg) (l : list node) : W := put_seq (map (put_node c) l).

(** convert_wstp.rs 903-977 [CodeAction::put] *)
Definition put_action (c : cfg) (a : action) : W :=
  let more := match ac_kind a with
    | ReplaceText t => [PFun "System`Rule" 2; PStr (bytes_of_string "ReplacementText"); PStr t]
    | InsertText t => [PFun "System`Rule" 2; PStr (bytes_of_string "InsertionText"); PStr t]
    | DeleteText => []
    end in
  wdo [PFun "CodeParser`CodeAction" 3; PStr (ac_label a);
       PSym (match ac_kind a with ReplaceText _ => "CodeParser`ReplaceText" | InsertText _ => "CodeParser`InsertText" | DeleteText => "CodeParser`DeleteText" end);
       PFun "System`Association" (match ac_kind a with DeleteText => 1 | _ => 2 end)] ;+
  put_source c (SSpan (ac_src a)) ;+ wdo more.

Definition put_list {A} (f : A -> W) (l : list A) : W := wdo [PFun "System`List" (length l)] ;+ wall (map f l).
Definition nonempty {A} (l : list A) : nat := match l with [] => 0%nat | _ => 1%nat end.
Definition put_when {A} (l : list A) (w : W) : W := match l with [] => wdo [] | _ => w end.

(** convert_wstp.rs 813-901 [Issue::put] *)
Definition put_issue (c : cfg) (i : wissue) : W :=
  wdo [PFun (wi_make i) 4; PStr (bytes_of_string (tag_as_str (wi_tag i))); PStr (wi_msg i); PStr (bytes_of_string (severity_as_str (wi_sev i)));
       PFun "System`Association" (2 + nonempty (wi_actions i) + nonempty (wi_descs i) + nonempty (wi_more i))] ;+
  put_source c (wi_src i) ;+
  wdo [PFun "System`Rule" 2; PSym "System`ConfidenceLevel"; PReal (wi_val i)] ;+
  put_when (wi_actions i) (wdo [PFun "System`Rule" 2; PSym "CodeParser`CodeActions"] ;+ put_list (put_action c) (wi_actions i)) ;+
  put_when (wi_descs i) (wdo [PFun "System`Rule" 2; PStr (bytes_of_string "AdditionalDescriptions")] ;+ put_list (fun d => wdo [PStr d]) (wi_descs i)) ;+
  put_when (wi_more i) (wdo [PFun "System`Rule" 2; PStr (bytes_of_string "AdditionalSources")] ;+ put_list (put_source_rhs c) (wi_more i)).

Definition someness {A} (o : option A) : nat := match o with Some _ => 1%nat | None => 0%nat end.

(** convert_wstp.rs 99-226 [Metadata::put] *)
Definition put_metadata (c : cfg) (m : wmeta) : W :=
  let field (name : string) (e : expr) : W := wdo [PFun "System`Rule" 2; PStr (bytes_of_string name); PExpr e] in
  wdo [PFun "System`Association"
        ((if include_source c (md_source m) then 1 else 0) + someness (md_issues m) + someness (md_conf m) + someness (md_actions m) +
         someness (md_descs m) + someness (md_file m) + someness (md_tabs m) + someness (md_newlines m) + someness (md_simple m) + someness (md_complex m))] ;+
  wopt (md_issues m) (fun l => wdo [PFun "System`Rule" 2; PSym "CodeParser`SyntaxIssues"] ;+ put_list (put_issue c) l) ;+
  wopt (md_tabs m) (field "EmbeddedTabs") ;+
  wopt (md_newlines m) (field "EmbeddedNewlines") ;+
  wopt (md_simple m) (field "SimpleLineContinuations") ;+
  wopt (md_complex m) (field "ComplexLineContinuations") ;+
  (if include_source c (md_source m) then wdo [PFun "System`Rule" 2; PSym "CodeParser`Source"] ;+ put_source_rhs c (md_source m) else wdo []) ;+
  wopt (md_conf m) (fun n => wdo [PExpr (match n with NumI n => EInt n | NumR n => EReal n end)]) ;+
  wopt (md_actions m) (fun l => wdo [PFun "System`Rule" 2; PSym "CodeParser`CodeActions"] ;+ put_list (put_action c) l) ;+
  wopt (md_descs m) (fun l => wdo [PFun "System`Rule" 2; PStr (bytes_of_string "AdditionalDescriptions")] ;+ put_list (fun d => wdo [PStr d]) l) ;+
  wopt (md_file m) (field "FileName").

(** convert_wstp.rs 59-72 [ContainerKind::put] *)
Definition container_symbol (k : container_kind) : string :=
  match k with
  | CString => "System`String" | CFile => "System`File" | CByte => "System`Byte"
  | CBox => "System`Box" | CCell => "System`Cell" | CHold => "System`Hold"
  end.

(** convert_wstp.rs 74-97 [ContainerBody::put] *)
Definition missing_text (r : missing) : list Z :=
  match r with
  | EmptyInput => bytes_of_string "EmptyInput"
  | UnsafeEncoding u => bytes_of_string ("UnsafeCharacterEncoding_" ++ unsafe_as_str u)
  end.
Definition put_body (c : cfg) (b : container_body node) : W :=
  match b with
  | Nodes l => put_nodes c l
  | Missing r => wdo [PFun "System`List" 1; PFun "System`Missing" 1; PStr (missing_text r)]
  end.

(** convert_wstp.rs 43-57 [Container::put] *)
Definition put_container (c : cfg) (x : container node) : W :=
  wdo [PFun "CodeParser`ContainerNode" 3; PSym (container_symbol (ct_kind x))] ;+ put_body c (ct_body x) ;+ put_metadata c (ct_meta x).

(** convert_wstp.rs 802-807 [UnsafeCharacterEncoding::put] *)
Definition put_unsafe (u : unsafe_encoding) : list packet := [PFun "System`Missing" 1; PStr (bytes_of_string (missing_reason u))].

(** convert_wstp.rs 1143-1150 [put_source_locations] *)
Definition put_locations (l : list loc) : W := wdo (PFun "System`List" (length l) :: concat (map put_loc l)).

(** convert_wstp.rs 1156-1205 [ParseResult::put] *)
Definition put_result (c : cfg) (r : parse_result node) : W :=
  let '(a1, a2, a3, a4) := r_tracked r in
  wdo [PFun "System`List" 6] ;+
  match r_unsafe r with
  | None => put_nodes c (r_syntax r)
  | Some u => wdo (PFun "System`List" 1 :: put_unsafe u)
  end ;+
  put_list (put_issue c) (match r_fatal r with [] => r_nonfatal r | _ => r_fatal r end) ;+
  put_locations a1 ;+ put_locations a2 ;+ put_locations a3 ;+ put_locations a4.

(** *** Abstract syntax trees *)

(** What the trees of Ast.v leave out: the texts of issues, the expressions in code nodes, the
    names of boxes. *)
Record filling := mk_filling { fl_msg : aissue -> list Z; fl_code : list Z -> expr; fl_box : Z -> box_kind }.

Definition of_asource (s : asource) : wsource := match s with Known s => SSpan s | Unknown => SUnknown end.

(** issue.rs 281-323 [Issue::syntax]; the issues of abstraction have no actions or descriptions *)
Definition of_aissue (fl : filling) (i : aissue) : wissue :=
  mk_wissue "CodeParser`SyntaxIssue"
    (match ai_tag i with
     | Ast.StrangeCallSlotSequence => Source.StrangeCallSlotSequence | Ast.StrangeCall => Source.StrangeCall
     | Ast.PrefixNotNot => Source.PrefixNotNot | Ast.SyntaxUndocumentedMessageName => Source.SyntaxUndocumentedMessageName
     end)
    (fl_msg fl i)
    (match ai_sev i with SevRemark => Remark | SevWarning => Warning | SevError => Error end)
    (of_asource (ai_src i)) (ai_conf i) [] [] (map of_asource (ai_more i)).

(** convert_wstp.rs 228-257 [AstMetadata::put] *)
Definition put_ameta (c : cfg) (fl : filling) (m : ameta) : W :=
  let s := of_asource (m_src m) in
  wdo [PFun "System`Association" ((if include_source c s then 1 else 0) + nonempty (m_issues m))] ;+
  (if include_source c s then wdo [PFun "System`Rule" 2; PSym "CodeParser`Source"] ;+ put_source_rhs c s else wdo []) ;+
  put_when (m_issues m)
    (wdo [PFun "System`Rule" 2; PSym "CodeParser`AbstractSyntaxIssues"] ;+ put_list (fun i => put_issue c (of_aissue fl i)) (m_issues m)).

(** ast.rs 388-403 [AbstractSyntaxError::as_str], convert_wstp.rs 509-515 *)
Definition abstract_error_name (e : abstract_error) : string :=
  match e with
  | CommaTopLevel => "CommaTopLevel" | OpenParen => "OpenParen" | OpenSquare => "OpenSquare"
  | ColonColonOpenSquare => "ColonColonOpenSquare" | LeftDoubleBracket => "LeftDoubleBracket"
  | NonAssociativePatternTest => "NonAssociativePatternTest" | LinearSyntaxBang => "LinearSyntaxBang"
  | AExpectedTilde => "ExpectedTilde"
  end.

(** convert_wstp.rs 263-507 [Ast::put] *)
Fixpoint put_ast (c : cfg) (fl : filling) (a : ast) : W :=
  let args l := wdo [PFun "System`List" (length l)] ;+ wall (map (put_ast c fl) l) in
  match a with
  | ALeaf k t d => wdo [PFun "CodeParser`LeafNode" 3] ;+ put_kind k ;+ put_text t ;+ put_ameta c fl d
  | AError k t d => wdo [PFun "CodeParser`ErrorNode" 3] ;+ put_kind k ;+ put_text t ;+ put_ameta c fl d
  | ACall h l d => wdo [PFun "CodeParser`CallNode" 3] ;+ put_ast c fl h ;+ args l ;+ put_ameta c fl d
  | ACallMissingCloser h l d => wdo [PFun "CodeParser`CallMissingCloserNode" 3] ;+ put_ast c fl h ;+ args l ;+ put_ameta c fl d
  | ASyntaxError e l d => wdo [PFun "CodeParser`SyntaxErrorNode" 3; PSym (syntax_error_symbol e)] ;+ args l ;+ put_ameta c fl d
  | AAbstractSyntaxError e l d =>
      wdo [PFun "CodeParser`AbstractSyntaxErrorNode" 3; PSym ("AbstractSyntaxError`" ++ abstract_error_name e)] ;+ args l ;+ put_ameta c fl d
  | ABox k l d => wdo [PFun "CodeParser`BoxNode" 3] ;+ put_box_kind c (fl_box fl k) ;+ args l ;+ put_ameta c fl d
  | ACode a b d => wdo [PFun "CodeParser`CodeNode" 3; PExpr (fl_code fl a); PExpr (fl_code fl b)] ;+ put_ameta c fl d
  | AGroup k o b cl d =>
      wdo [PFun "CodeParser`GroupNode" 3] ;+ put_operator (family_of KGroup) k ;+
      (wdo [PFun "System`List" 3] ;+ put_ast c fl o ;+ put_ast c fl b ;+ put_ast c fl cl) ;+ put_ameta c fl d
  | AGroupMissingCloser k l d => wdo [PFun "CodeParser`GroupMissingCloserNode" 3] ;+ put_operator (family_of KGroup) k ;+ args l ;+ put_ameta c fl d
  | AGroupMissingOpener k l d => wdo [PFun "CodeParser`GroupMissingOpenerNode" 3] ;+ put_operator (family_of KGroup) k ;+ args l ;+ put_ameta c fl d
  | ATagBoxGroupParen o b cl src a1 a2 tsrc d =>
      wdo [PFun "CodeParser`BoxNode" 3] ;+ put_box_kind c (BNamed "TagBox") ;+
      (wdo [PFun "System`List" 2] ;+
       (wdo [PFun "CodeParser`GroupNode" 3] ;+ put_operator (family_of KGroup) GOP_CodeParser_GroupParen ;+
        (wdo [PFun "System`List" 3] ;+ put_ast c fl o ;+ put_ast c fl b ;+ put_ast c fl cl) ;+ put_source c (of_asource src)) ;+
       (wdo [PFun "CodeParser`CodeNode" 3; PExpr (fl_code fl a1); PExpr (fl_code fl a2)] ;+ put_source c (of_asource tsrc))) ;+
      put_ameta c fl d
  | APrefixLinearSyntaxBang x y d =>
      wdo [PFun "CodeParser`PrefixNode" 3] ;+ put_operator (family_of KPrefix) PREOP_CodeParser_PrefixLinearSyntaxBang ;+
      (wdo [PFun "System`List" 2] ;+ put_ast c fl x ;+ put_ast c fl y) ;+ put_ameta c fl d
  end.

(** ** Reading *)

(** [Result<A, String>], or a panic *)
Definition fres (A : Type) := res (option A).
Definition fbind {A B} (r : fres A) (f : A -> fres B) : fres B :=
  a <~ r ;; match a with Some a => f a | None => Ok None end.
Definition some {A} (a : A) : fres A := Ok (Some a).
Definition err {A} : fres A := Ok None.
(** [.expect(..)] *)
Definition expect {A} (r : fres A) : fres A := a <~ r ;; match a with Some a => Ok (Some a) | None => Panic end.
Definition of_option {A} (o : option A) : fres A := Ok o.

Local Notation "x <- e ;; k" := (fbind e (fun x => k)) (at level 61, e at next level, right associativity).
Local Notation "' p <- e ;; k" := (fbind e (fun x => match x with p => k end)) (at level 61, p pattern, e at next level, right associativity).

(** [.map(f).collect::<Result<Vec<_>, _>>()]: up to the first error *)
Definition collectf {A B} (f : A -> fres B) : list A -> fres (list B) :=
  fix go l := match l with [] => some [] | a :: r => b <- f a ;; bs <- go r ;; some (b :: bs) end.

(** from_expr.rs 1394-1409 [try_normal_with_head] *)
Definition normal_with_head (h : string) (e : expr) : fres (list expr) :=
  match e with ENormal (ESym s) args => if String.eqb s h then some args else err | _ => err end.

Definition is_sym (s : string) (e : expr) : bool := match e with ESym t => String.eqb t s | _ => false end.
Definition is_str (s : string) (e : expr) : bool := match e with EStr t => zlist_eqb t (bytes_of_string s) | _ => false end.
Definition as_symbol (e : expr) : option string := match e with ESym s => Some s | _ => None end.
Definition as_string (e : expr) : option (list Z) := match e with EStr s => Some s | _ => None end.

(** [SymbolRef::context], [symbol_name]: at the last backtick *)
Fixpoint has_tick (s : string) : bool := match s with EmptyString => false | String a r => Ascii.eqb a "`"%char || has_tick r end.
Fixpoint split_symbol (s : string) : string * string :=
  match s with
  | EmptyString => (EmptyString, EmptyString)
  | String a r =>
      if has_tick r then let '(x, n) := split_symbol r in (String a x, n)
      else if Ascii.eqb a "`"%char then (String a EmptyString, r) else (EmptyString, s)
  end.

(** from_expr.rs 1335-1363 [List<usize>::from_expr] *)
Definition index_of_expr (e : expr) : fres Z := match e with EInt n => if 0 <=? n then some n else err | _ => err end.
Definition indexes_of (e : expr) : fres (list Z) := l <- normal_with_head "System`List" e ;; collectf index_of_expr l.

(** from_expr.rs 855-871 [get_source_pos] *)
Definition pos_of (e : expr) : option Z := match e with EInt n => if (0 <=? n) && (n <? 2 ^ 32) then Some n else None | _ => None end.

(** from_expr.rs 890-924 [span_from_raw_values] *)
Definition span_from_raw (a b c d : Z) : fres span :=
  if negb (a =? 0) && negb (b =? 0) && negb (c =? 0) && negb (d =? 0) then
    match loc_leb (LineCol a b) (LineCol c d) with Some true => some (mkspan (LineCol a b) (LineCol c d)) | _ => Panic end
  else if (a =? 0) && negb (b =? 0) && (c =? 0) && negb (d =? 0) then some (mkspan (CharIdx b) (CharIdx d))
  else err.

Definition boxes (k : container_kind) : bool := match k with CBox | CCell => true | _ => false end.

(** [Some([list])] of from_expr.rs 1426-1444 [try_normal_with_head_and_len] with length 1:
    [Ok None] when the head is another one *)
Definition headed_one (h : string) (e : expr) : fres (option expr) :=
  match e with
  | ENormal (ESym s) args =>
      if String.eqb s h then match args with [x] => some (Some x) | _ => err end else some None
  | _ => some None
  end.

(** from_expr.rs 777-888 [Source::from_expr]; [ck] is the value of the cell [CONTAINER_KIND] *)
Definition source_of (c : cfg) (ck : option container_kind) (e : expr) : fres wsource :=
  after <- headed_one "System`After" e ;;
  match after with
  | Some x => l <- indexes_of x ;; some (SBox (BAfter l))
  | None =>
  before <- headed_one "System`Before" e ;;
  match before with
  | Some x => l <- indexes_of x ;; some (SBox (BBefore l))
  | None =>
  elements <- normal_with_head "System`List" e ;;
  match ck with
  | None => Panic
  | Some ck =>
  if boxes ck then l <- indexes_of e ;; some (SBox (BAt l))
  else match elements with
  | [s; t] =>
      match pos_of s with
      | Some i =>
          j <- of_option (pos_of t) ;;
          if j =? 2 ^ 32 - 1 then if asserts c then Panic else some (SSpan (mkspan (CharIdx i) (CharIdx 0)))
          else some (SSpan (mkspan (CharIdx i) (CharIdx (j + 1))))
      | None =>
          start <- normal_with_head "System`List" s ;;
          stop <- normal_with_head "System`List" t ;;
          match start, stop with
          | [a; b], [x; y] =>
              a <- of_option (pos_of a) ;; b <- of_option (pos_of b) ;;
              x <- of_option (pos_of x) ;; y <- of_option (pos_of y) ;;
              s <- span_from_raw a b x y ;; some (SSpan s)
          | _, _ => Panic
          end
      end
  | _ => err
  end end end end.

(** from_expr.rs 1278-1302, 1365-1383 [Association::from_expr], [Rule::from_expr]; the right
    sides are passed through [f] *)
Definition rule_of {A} (f : expr -> A) (e : expr) : fres (expr * A) :=
  match e with
  | ENormal (ESym s) args =>
      if String.eqb s "System`Rule" then match args with [l; r] => some (l, f r) | _ => Panic end else err
  | _ => err
  end.
Definition rules_of {A} (f : expr -> A) (e : expr) : fres (list (expr * A)) :=
  match e with
  | ENormal (ESym s) args => if String.eqb s "System`Association" then collectf (rule_of f) args else err
  | _ => err
  end.

(** from_expr.rs 1293-1302 [Association::lookup]: the first rule for a string *)
Fixpoint lookup {A} (key : string) (l : list (expr * A)) : option A :=
  match l with [] => None | (k, v) :: r => if is_str key k then Some v else lookup key r end.

(** the rules with a left side of from_expr.rs 697-725 *)
Inductive field := FSource | FIssues | FConf | FActions | FTabs | FNewlines | FComplex | FSimple | FInsertion | FReplacement | FFile | FDescs.
Definition field_of (lhs : expr) : option field :=
  if is_sym "CodeParser`Source" lhs then Some FSource
  else if is_sym "CodeParser`SyntaxIssues" lhs then Some FIssues
  else if is_sym "System`ConfidenceLevel" lhs then Some FConf
  else if is_sym "CodeParser`CodeActions" lhs then Some FActions
  else if is_str "EmbeddedTabs" lhs then Some FTabs
  else if is_str "EmbeddedNewlines" lhs then Some FNewlines
  else if is_str "ComplexLineContinuations" lhs then Some FComplex
  else if is_str "SimpleLineContinuations" lhs then Some FSimple
  else if is_str "InsertionText" lhs then Some FInsertion
  else if is_str "ReplacementText" lhs then Some FReplacement
  else if is_str "FileName" lhs then Some FFile
  else if is_str "AdditionalDescriptions" lhs then Some FDescs
  else None.
Definition field_eqb (a b : field) : bool :=
  match a, b with
  | FSource, FSource | FIssues, FIssues | FConf, FConf | FActions, FActions | FTabs, FTabs | FNewlines, FNewlines
  | FComplex, FComplex | FSimple, FSimple | FInsertion, FInsertion | FReplacement, FReplacement | FFile, FFile | FDescs, FDescs => true
  | _, _ => false
  end.
(** the last rule for a field; a left side that is no field panics ([todo!]) *)
Fixpoint fields_of {A} (l : list (expr * A)) : res (list (field * A)) :=
  match l with
  | [] => Ok []
  | (k, v) :: r => match field_of k with Some f => fs <~ fields_of r ;; Ok ((f, v) :: fs) | None => Panic end
  end.
Fixpoint last_field {A} (f : field) (l : list (field * A)) : option A :=
  match l with
  | [] => None
  | (g, v) :: r => match last_field f r with Some w => Some w | None => if field_eqb f g then Some v else None end
  end.

(** an optional field read by [f] *)
Definition optional {A B} (o : option A) (f : A -> fres B) : fres (option B) :=
  match o with Some a => b <- f a ;; some (Some b) | None => some None end.

(** [Expr::try_as_number] *)
Definition number_of (e : expr) : option number := match e with EInt n => Some (NumI n) | EReal n => Some (NumR n) | _ => None end.

(** from_expr.rs 1319-1333 [List<String>::from_expr] *)
Definition strings_of (e : expr) : fres (list (list Z)) :=
  l <- normal_with_head "System`List" e ;; collectf (fun x => of_option (as_string x)) l.

(** from_expr.rs 1081-1166 [Issue::from_expr]; [meta] is [Metadata::from_expr] *)
Definition issue_with (meta : expr -> fres wmeta) (e : expr) : fres wissue :=
  match e with
  | ENormal h args =>
      match h with
      | ESym s =>
          if existsb (String.eqb s) ["CodeParser`SyntaxIssue"; "CodeParser`EncodingIssue"; "CodeParser`FormatIssue"] then
            match args with
            | [EStr tag; EStr msg; EStr sev; m] =>
                m <- expect (meta m) ;;
                if (someness (md_issues m) + someness (md_file m) + someness (md_tabs m) + someness (md_newlines m)
                    + someness (md_simple m) + someness (md_complex m) =? 0)%nat then
                  tag <- expect (of_option (tag_from_str (string_of_bytes tag))) ;;
                  sev <- expect (of_option (severity_from_str (string_of_bytes sev))) ;;
                  match md_conf m with
                  | None => Panic
                  | Some n =>
                      some (mk_wissue s tag msg sev (md_source m) (match n with NumI n => 100 * n | NumR n => n end)
                              (match md_actions m with Some l => l | None => [] end)
                              (match md_descs m with Some l => l | None => [] end) [])
                  end
                else Panic
            | _ => Panic
            end
          else Panic
      | _ => Panic
      end
  | _ => err
  end.

(** from_expr.rs 1168-1226 [CodeAction::from_expr] *)
Definition action_with (meta : expr -> fres wmeta) (e : expr) : fres action :=
  match e with
  | ENormal (ESym s) args =>
      if String.eqb s "CodeParser`CodeAction" then
        match args with
        | [EStr label; ESym kind; m] =>
            rules <- expect (rules_of (fun r => r) m) ;;
            let '(ctx, name) := split_symbol kind in
            if negb (String.eqb ctx "CodeParser`") then Panic
            else
              let text key := expect (t <- of_option (lookup key rules) ;; of_option (as_string t)) in
              k <- (if String.eqb name "ReplaceText" then t <- text "ReplacementText" ;; some (ReplaceText t)
                    else if String.eqb name "InsertText" then t <- text "InsertionText" ;; some (InsertText t)
                    else if String.eqb name "DeleteText" then some DeleteText else Panic) ;;
              m <- expect (meta m) ;;
              match md_source m with
              | SSpan sp => some (mk_action label k sp)
              | _ => Panic
              end
        | _ => Panic
        end
      else err
  | _ => err
  end.

(** from_expr.rs 682-775 [Metadata::from_expr].  What is inside a right side is looked at in
    every field, to make the recursion structural, but used only where the code looks. *)
Fixpoint meta_of (c : cfg) (ck : option container_kind) (e : expr) : fres wmeta :=
  rules <- rules_of (fun r =>
    (r, (match r with
         | ENormal (ESym s) l => if String.eqb s "System`List" then collectf (issue_with (meta_of c ck)) l else err
         | _ => err
         end,
         match r with
         | ENormal (ESym s) l => if String.eqb s "System`List" then collectf (action_with (meta_of c ck)) l else err
         | _ => err
         end))) e ;;
  fs <~ fields_of rules ;;
  let get f := match last_field f fs with Some (r, _) => Some r | None => None end in
  source <- (match get FSource with Some r => source_of c ck r | None => some SUnknown end) ;;
  issues <- optional (last_field FIssues fs) (fun x => fst (snd x)) ;;
  conf <- optional (get FConf) (fun r => expect (of_option (number_of r))) ;;
  actions <- optional (last_field FActions fs) (fun x => snd (snd x)) ;;
  descs <- optional (get FDescs) strings_of ;;
  some (mk_wmeta source issues conf actions descs (get FFile) (get FTabs) (get FNewlines) (get FSimple) (get FComplex)).

(** from_expr.rs 1062-1079 [TokenKind::from_expr], 936-1060 *)
Definition kind_of (e : expr) : fres Z := match as_symbol e with None => Panic | Some s => of_option (tk_from_symbol s) end.
Definition operator_of (f : family) (e : expr) : fres Z := match as_symbol e with None => Panic | Some s => of_option (op_from_symbol f s) end.

(** cst.rs 875-911 [BoxKind::from_str], [BoxKind::from_symbol], from_expr.rs 524-535 *)
Definition box_kind_of (e : expr) : fres box_kind :=
  match as_symbol e with
  | None => Panic
  | Some s =>
      let '(ctx, name) := split_symbol s in
      if negb (String.eqb ctx "System`") then Panic
      else if negb (ends_with "Box" name) then Panic
      else some (if existsb (String.eqb name) BOX_NAMES then BNamed name else BOther ctx name)
  end.

(** cst.rs 837-846 [SyntaxErrorKind::from_str], from_expr.rs 625-641 *)
Definition syntax_error_of (e : expr) : fres syntax_error :=
  match as_symbol e with
  | None => Panic
  | Some s =>
      let '(ctx, name) := split_symbol s in
      if negb (String.eqb ctx "SyntaxError`") then Panic
      else match string_match name [("ExpectedSymbol", ExpectedSymbol); ("ExpectedSet", ExpectedSet); ("ExpectedTilde", ExpectedTilde)] with
           | Some e => some e
           | None => Panic
           end
  end.

(** [Source]'s [==] *)
Definition wsource_eqb (a b : wsource) : bool :=
  match a, b with
  | SSpan a, SSpan b => span_eqb a b
  | SBox a, SBox b => bp_eqb a b
  | SUnknown, SUnknown => true
  | _, _ => false
  end.

(** from_expr.rs 80-103 [compare_declared_and_computed_src] *)
Definition compare_src (c : cfg) (is_group : bool) (computed : res wsource) (declared : wsource) (n : node) : fres node :=
  if negb (strict c) then some n
  else
    computed <~ computed ;;
    if wsource_eqb computed declared then some n
    else if is_group && match computed with SBox (BSpanning _ _) => true | _ => false end then some n
    else Panic.

(** the head of an operator node *)
Definition op_kind_of (s : string) : option opkind :=
  find (fun k => String.eqb s (op_head k))
    [KCompound; KPrefix; KInfix; KPrefixBinary; KBinary; KTernary; KPostfix; KGroup; KGroupMissingCloser; KGroupMissingOpener].
(** which node types panic where others give an error (from_expr.rs 388-392, 431-433, 491-493):
    for the operator and the children, and for the metadata *)
Definition panics (k : opkind) : bool * bool :=
  match k with KInfix => (true, true) | KBinary | KGroup => (true, false) | _ => (false, false) end.
Definition expect_if {A} (b : bool) (r : fres A) : fres A := if b then expect r else r.

(** from_expr.rs 210-656 [Cst::from_expr] and the node types it tries one after the other.
    Simplification: as every node type has its own head, the head says which one succeeds,
    and when it gives an error the others do, too. *)
Fixpoint node_of (c : cfg) (ck : option container_kind) (e : expr) : fres node :=
  match e with
  | ENormal (ESym s) args =>
      if String.eqb s "CodeParser`LeafNode" || String.eqb s "CodeParser`ErrorNode" then
        match args with
        | [k; t; m] => k <- kind_of k ;; t <- of_option (as_string t) ;; m <- meta_of c ck m ;; some (NTok k t (md_source m))
        | _ => Panic
        end
      else if String.eqb s "CodeParser`CallNode" then
        match args with
        | [h; b; m] =>
            h <- match h with
                 | ENormal (ESym hs) l =>
                     if String.eqb hs "System`List" then l <- expect (collectf (node_of c ck) l) ;; some (Concrete l)
                     else n <- node_of c ck h ;; some (Aggregate n)
                 | _ => n <- node_of c ck h ;; some (Aggregate n)
                 end ;;
            '(missing, op, ch) <- expect
              (match b with
               | ENormal (ESym bs) bargs =>
                   if String.eqb bs "CodeParser`GroupNode" then
                     match bargs with
                     | [o; x; bm] =>
                         o <- expect (operator_of call_family o) ;;
                         ch <- expect (match x with ENormal (ESym xs) l => if String.eqb xs "System`List" then collectf (node_of c ck) l else err | _ => err end) ;;
                         bm <- meta_of c ck bm ;;
                         _ <- compare_src c true (sources_span (map node_source ch)) (md_source bm) (NCall (Concrete []) false o ch) ;;
                         some (false, o, ch)
                     | _ => Panic
                     end
                   else if String.eqb bs "CodeParser`GroupMissingCloserNode" then
                     match bargs with
                     | [o; x; bm] =>
                         o <- operator_of call_family o ;;
                         ch <- match x with ENormal (ESym xs) l => if String.eqb xs "System`List" then collectf (node_of c ck) l else err | _ => err end ;;
                         bm <- meta_of c ck bm ;;
                         _ <- compare_src c false (sources_span (map node_source ch)) (md_source bm) (NCall (Concrete []) true o ch) ;;
                         some (true, o, ch)
                     | _ => Panic
                     end
                   else err
               | _ => err
               end) ;;
            m <- meta_of c ck m ;;
            compare_src c false (node_source (NCall h missing op ch)) (md_source m) (NCall h missing op ch)
        | _ => Panic
        end
      else if String.eqb s "CodeParser`BoxNode" then
        match args with
        | [k; x; m] =>
            k <- expect (box_kind_of k) ;;
            ch <- expect (match x with ENormal (ESym xs) l => if String.eqb xs "System`List" then collectf (node_of c ck) l else err | _ => err end) ;;
            m <- meta_of c ck m ;; some (NBox k ch (md_source m))
        | _ => Panic
        end
      else if String.eqb s "CodeParser`SyntaxErrorNode" then
        match args with
        | [k; x; m] =>
            k <- syntax_error_of k ;;
            ch <- match x with ENormal (ESym xs) l => if String.eqb xs "System`List" then collectf (node_of c ck) l else err | _ => err end ;;
            m <- meta_of c ck m ;;
            if asserts c then
              src <~ sources_span (map node_source ch) ;;
              if wsource_eqb src (md_source m) then some (NSynErr k ch) else Panic
            else some (NSynErr k ch)
        | _ => Panic
        end
      else if String.eqb s "CodeParser`CodeNode" then
        match args with
        | [a; b; m] => m <- meta_of c ck m ;; some (NCode a b (md_source m))
        | _ => Panic
        end
      else
        match op_kind_of s with
        | Some k =>
            match args with
            | [o; x; m] =>
                op <- expect_if (fst (panics k)) (operator_of (family_of k) o) ;;
                ch <- expect_if (fst (panics k))
                        (match x with ENormal (ESym xs) l => if String.eqb xs "System`List" then collectf (node_of c ck) l else err | _ => err end) ;;
                m <- expect_if (snd (panics k)) (meta_of c ck m) ;;
                compare_src c (match k with KGroup => true | _ => false end) (sources_span (map node_source ch)) (md_source m) (NOp k op ch)
            | _ => Panic
            end
        | None => err
        end
  | _ => err
  end.

(** from_expr.rs 137-156 [ContainerKind::from_expr] *)
Definition container_kind_of (e : expr) : fres container_kind :=
  match as_symbol e with
  | None => Panic
  | Some s => of_option (string_match s
      [("System`String", CString); ("System`File", CFile); ("System`Byte", CByte); ("System`Box", CBox); ("System`Cell", CCell); ("System`Hold", CHold)])
  end.

(** from_expr.rs 158-208 [ContainerBody::from_expr], [NodeSeq::from_expr] *)
Definition body_of (c : cfg) (ck : option container_kind) (e : expr) : fres (container_body node) :=
  let nodes := l <- normal_with_head "System`List" e ;; l <- collectf (node_of c ck) l ;; some (Nodes l) in
  match e with
  | ENormal (ESym s) [ENormal (ESym m) margs] =>
      if String.eqb s "System`List" && String.eqb m "System`Missing" then
        match margs with
        | [r] =>
            match as_string r with
            | Some t =>
                if zlist_eqb t (bytes_of_string "EmptyInput") then some (Missing EmptyInput)
                else u <- of_option (from_missing_reason (string_of_bytes t)) ;; some (Missing (UnsafeEncoding u))
            | None => err
            end
        | _ => err
        end
      else nodes
  | _ => nodes
  end.

(** from_expr.rs 105-135 [Container::from_expr]: the result and what the cell
    [CONTAINER_KIND] holds afterwards *)
Definition container_of (c : cfg) (cell : option container_kind) (e : expr) : fres (container node) * option container_kind :=
  match e with
  | ENormal (ESym s) args =>
      if String.eqb s "CodeParser`ContainerNode" then
        match args with
        | [k; b; m] =>
            match container_kind_of k with
            | Ok (Some k) =>
                match expect (body_of c (Some k) b) with
                | Ok (Some b) =>
                    match meta_of c (Some k) m with
                    | Ok (Some m) => (some (mk_container k b m), None)
                    | r => (_ <- r ;; err, Some k)
                    end
                | r => (_ <- r ;; err, Some k)
                end
            | r => (_ <- r ;; err, cell)
            end
        | _ => (Panic, cell)
        end
      else (err, cell)
  | _ => (err, cell)
  end.

(** from_expr.rs 63-74 [from_expr_with_container_kind] *)
Definition node_with_kind (c : cfg) (k : container_kind) (cell : option container_kind) (e : expr) : fres node * option container_kind :=
  (node_of c (Some k) e, None).

(** from_expr.rs 1229-1272 [QuirkSettings::from_expr]: the three settings, if given; [try_as_bool] *)
Definition bool_of (e : expr) : option bool := if is_sym "System`True" e then Some true else if is_sym "System`False" e then Some false else None.
Record quirks := mk_quirks { qs_infix_binary_at : bool; qs_flatten_times : bool; qs_old_at_at_at : bool }.
Definition default_quirks := mk_quirks true false false.
Fixpoint quirk_rules (l : list (expr * expr)) (q : option expr * option expr * option expr) : res (option expr * option expr * option expr) :=
  let '(a, b, c) := q in
  match l with
  | [] => Ok q
  | (k, v) :: r =>
      if is_str "InfixBinaryAt" k then quirk_rules r (Some v, b, c)
      else if is_str "FlattenTimes" k then quirk_rules r (a, Some v, c)
      else if is_str "OldAtAtAt" k then quirk_rules r (a, b, Some v)
      else Panic
  end.
Definition quirks_of (e : expr) : fres quirks :=
  rules <- rules_of (fun r => r) e ;;
  '(a, b, c) <~ quirk_rules rules (None, None, None) ;;
  let value o d := match o with Some e => match bool_of e with Some v => v | None => d end | None => d end in
  some (mk_quirks (value a true) (value b false) (value c false)).

(** ** Parser trees *)

Fixpoint of_cst (fl : filling) (n : cst) : node :=
  match n with
  | Tok t => NTok (t_kind t) (t_text t) (SSpan (t_src t))
  | Call h m op b =>
      NCall (match h with Concrete l => Concrete (map (of_cst fl) l) | Aggregate x => Aggregate (of_cst fl x) end) m op (map (of_cst fl) b)
  | SynErr e ch => NSynErr e (map (of_cst fl) ch)
  | Op k op ch => NOp k op (map (of_cst fl) ch)
  | BoxN k ch src => NBox (fl_box fl k) (map (of_cst fl) ch) (SSpan src)
  | CodeN a b src => NCode (fl_code fl a) (fl_code fl b) (SSpan src)
  end.
