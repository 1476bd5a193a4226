(** Properties of the token-kind, operator and precedence tables: C22, C23, C24, C32, C40. *)
From Coq Require Import String ZArith List Bool Lia.
From Verif Require Import Base GenTokenKind GenPrec GenOps GenSymbols TokenKind Parselets GenParselets TableProofs.
Import ListNotations.
Local Open Scope Z_scope.

(** C22: every classification test agrees with the list of names published for it
    ([trivia_names] is the list in the test of token_kind.rs). *)
Theorem C22_classification : forall k n, In (k, n) KINDS ->
  (isTrivia k = true <-> In n trivia_names) /\ (isCloser k = true <-> In n CLOSERS_names) /\
  (isError k = true <-> In n ERROR_names) /\ (isUnterminated k = true <-> In n UNTERMINATED_names) /\
  (isEmpty k = true <-> In n EMPTY_names) /\ (isPossibleBeginning k = true <-> In n POSSIBLE_BEGINNING_names).
Proof. exact kinds_ok. Qed.
Print Assumptions C22_classification.

(** ... the ids occupy the low nine bits and can be recovered from the packed value ... *)
Theorem C22_ids : forall k n, In (k, n) KINDS -> tk_id k = k /\ 0 <= k < 512 /\ bits k < 65536.
Proof. exact kinds_in_range. Qed.
Print Assumptions C22_ids.

(** ... and kinds, packed values and names are pairwise distinct. *)
Theorem C22_distinct : (NoDup (map (fun p => fst p) KINDS) /\ NoDup (map (fun p => bits (fst p)) KINDS)) /\
  (forall k k' n n', In (k, n) KINDS -> In (k', n') KINDS -> n = n' -> k = k').
Proof. exact (conj kinds_distinct names_distinct). Qed.
Print Assumptions C22_distinct.

Example C22_case : bits TK_Error_Aborted = 20 + 3 * 512 + 2048 /\ isError TK_Error_Aborted = true /\
  isEmpty TK_Error_Aborted = true /\ isCloser TK_Error_Aborted = false /\ length KINDS = 436%nat.
Proof. vm_compute. repeat split. Qed.

(** C23: the openers are exactly the listed kinds; each closer is a closer kind that maps to itself. *)
Theorem C23_openers : forall k, In k openers <-> exists c, GroupOpenerToCloser k = Ok c.
Proof. exact openers_closed. Qed.
Print Assumptions C23_openers.

Theorem C23_closer_of_opener : forall k c, GroupOpenerToCloser k = Ok c ->
  isCloser c = true /\ TokenToCloser c = c /\ In c KIDS /\ In k KIDS.
Proof. exact opener_closer. Qed.
Print Assumptions C23_closer_of_opener.

(** Only [OpenSquare] and [ColonColonOpenSquare] share a closer. *)
Theorem C23_closers_distinct : forall k k' c, GroupOpenerToCloser k = Ok c -> GroupOpenerToCloser k' = Ok c ->
  k = k' \/ (c = TK_CloseSquare /\ (k = TK_OpenSquare \/ k = TK_ColonColonOpenSquare) /\ (k' = TK_OpenSquare \/ k' = TK_ColonColonOpenSquare)).
Proof. exact closer_shared. Qed.
Print Assumptions C23_closers_distinct.

Theorem C23_closers_complete : forall k, In k KIDS ->
  (isCloser k = true <-> exists o, GroupOpenerToCloser o = Ok k) /\
  (isCloser k = true -> TokenToCloser k = k) /\ (isCloser k = false -> TokenToCloser k = Closer_AssertFalse).
Proof. exact closers_have_openers. Qed.
Print Assumptions C23_closers_complete.

(** The parselet tables start groups and calls at openers only, and at every opener. *)
Theorem C23_parselets :
  (forall k t g, In (k, PP_Group t g) PREFIX_PARSELETS -> t = k /\ In k openers) /\
  (forall k t g, In (k, IP_Call t g) INFIX_PARSELETS -> t = k /\ In k openers /\ exists c, try_to_call_operator g = Ok c) /\
  (forall k, In k openers -> exists g, In (k, PP_Group k g) PREFIX_PARSELETS) /\
  (forall k, In (k, PP_PrefixCloser) PREFIX_PARSELETS -> isCloser k = true).
Proof. exact parselet_openers. Qed.
Print Assumptions C23_parselets.

Example C23_case : GroupOpenerToCloser TK_LessBar = Ok TK_BarGreater /\ GroupOpenerToCloser TK_Less = Panic.
Proof. vm_compute. split; reflexivity. Qed.

(** C24 *)
Theorem C24_kind_symbol_kind : forall k, In k KIDS -> exists s, tk_to_symbol k = Some s /\
  tk_from_symbol s = Some (if k =? TK_ToplevelNewline then TK_InternalNewline else k).
Proof. exact symbols_back. Qed.
Print Assumptions C24_kind_symbol_kind.

Theorem C24_symbol_kind_symbol : forall s k, tk_from_symbol s = Some k -> In k KIDS /\ tk_to_symbol k = Some s.
Proof. exact symbols_forth. Qed.
Print Assumptions C24_symbol_kind_symbol.

Example C24_case : tk_to_symbol TK_ToplevelNewline = Some "Token`Newline"%string /\
  tk_from_symbol "Token`Newline"%string = Some TK_InternalNewline /\ tk_from_symbol "Token`Nope"%string = None.
Proof. vm_compute. repeat split. Qed.

(** C32: a precedence [p] has level [p / 2] and is right-associative when odd.  The
    context wins over (stops) the operator to the right iff its level is higher or the
    levels are equal and the operator is not right-associative. *)
Theorem C32_precedence_comparison : forall ctx op, 0 <= ctx -> 0 <= op ->
  (prec_greater ctx op = true <-> (op / 2 < ctx / 2 \/ (op / 2 = ctx / 2 /\ op mod 2 = 0))).
Proof. exact prec_greater_spec. Qed.
Print Assumptions C32_precedence_comparison.

(** The table has one associativity per level, and every precedence fits in a non-zero byte. *)
Theorem C32_one_associativity_per_level :
  (forall n p n' p', In (n, p) PRECEDENCES -> In (n', p') PRECEDENCES -> p / 2 = p' / 2 -> p = p') /\
  (forall n p, In (n, p) PRECEDENCES -> 1 <= p <= 255).
Proof. exact (conj precedences_assoc precedences_ok). Qed.
Print Assumptions C32_one_associativity_per_level.

Example C32_case : prec_greater PREC_CARET PREC_CARET = false /\ prec_greater PREC_SLASH PREC_SLASH = true /\
  prec_greater PREC_INFIX_PLUS PREC_STAR = false /\ prec_greater PREC_STAR PREC_INFIX_PLUS = true /\ prec_greater 0 PREC_COMMA = false.
Proof. vm_compute. repeat split. Qed.

(** C40 *)
Theorem C40_operator_symbol_operator : forall f x, In f FAMILIES -> In x (f_all f) ->
  exists s, op_to_symbol f x = Some s /\ op_from_symbol f s = Some x.
Proof. exact ops_back. Qed.
Print Assumptions C40_operator_symbol_operator.

Theorem C40_symbol_operator_symbol : forall f s x, In f FAMILIES -> op_from_symbol f s = Some x ->
  In x (f_all f) /\ op_to_symbol f x = Some s.
Proof. exact ops_forth. Qed.
Print Assumptions C40_symbol_operator_symbol.

Theorem C40_operators_distinct : forall f x y s, In f FAMILIES -> In x (f_all f) -> In y (f_all f) ->
  op_to_symbol f x = Some s -> op_to_symbol f y = Some s -> x = y.
Proof. exact ops_distinct. Qed.
Print Assumptions C40_operators_distinct.

Example C40_case : length (f_all (hd (mkfamily [] [] []) FAMILIES)) = 195%nat /\ length FAMILIES = 9%nat /\
  op_from_symbol (hd (mkfamily [] [] []) FAMILIES) "System`Times"%string = Some IOP_Times.
Proof. vm_compute. repeat split. Qed.
