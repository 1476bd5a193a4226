(** Token kinds and their classification: tokenize/token_kind.rs; symbols; precedence.rs.
    A kind is its id, the number written in the [token_kind!] invocation (GenTokenKind);
    the numeric value of the Rust enum is [bits]. *)
From Coq Require Import String ZArith List Bool.
From Verif Require Import Base Source GenTokenKind GenOps GenSymbols.
Import ListNotations.
Local Open Scope Z_scope.

(** [stringify!($variant)] *)
Definition kind_name (k : Z) : string :=
  match assoc k KINDS with Some n => n | None => EmptyString end.

(** utils.rs [contains] on string slices *)
Definition contains (l : list string) (n : string) : bool := existsb (String.eqb n) l.

(** token_kind.rs 14-37: group values and masks *)
Definition Group1_PossibleBeginning : Z := Z.shiftl 1 9.
Definition Group1_Closer : Z := Z.shiftl 2 9.
Definition Group1_Error : Z := Z.shiftl 3 9.
Definition Group1_MASK : Z := Z.shiftl 3 9.
Definition Group2_Empty : Z := Z.shiftl 1 11.
Definition Group2_Unterminated : Z := Z.shiftl 2 11.
Definition Group2_MASK : Z := Z.shiftl 3 11.

(** token_kind.rs 217-252 [variant] (the debug assertions on bit ranges are proved as
    part of C22) *)
Definition variant (id : Z) (name : string) : Z :=
  let group1 :=
    if contains POSSIBLE_BEGINNING_names name then Group1_PossibleBeginning
    else if contains CLOSERS_names name then Group1_Closer
    else if contains ERROR_names name then Group1_Error
    else 0 in
  let group2 :=
    if contains EMPTY_names name then Group2_Empty
    else if contains UNTERMINATED_names name then Group2_Unterminated
    else 0 in
  Z.lor (Z.lor id group1) group2.

(** token_kind.rs 876-879 [bits] *)
Definition bits (k : Z) : Z := variant k (kind_name k).

(** token_kind.rs 882-885 [id] *)
Definition tk_id (k : Z) : Z := Z.land (bits k) 0x1ff.

(** token_kind.rs 897-940 *)
Definition isTrivia (k : Z) : bool := Z.land (bits k) 0x1f8 =? 0x08.
Definition isTriviaButNotToplevelNewline (k : Z) : bool := Z.land (bits k) 0x1fc =? 0x08.
Definition isPossibleBeginning (k : Z) : bool := Z.land (bits k) Group1_MASK =? Group1_PossibleBeginning.
Definition isCloser (k : Z) : bool := Z.land (bits k) Group1_MASK =? Group1_Closer.
Definition isError (k : Z) : bool := Z.land (bits k) Group1_MASK =? Group1_Error.
Definition isUnterminated (k : Z) : bool := Z.land (bits k) Group2_MASK =? Group2_Unterminated.
Definition isEmpty (k : Z) : bool := Z.land (bits k) Group2_MASK =? Group2_Empty.

(** token_kind.rs 888-894 [newline_with_policy] *)
Definition newline_with_policy (pol : policy) : Z :=
  if p_toplevel pol then TK_ToplevelNewline else TK_InternalNewline.

(** token_kind.rs 957-976 [Closer]: represented by the kind of the same name;
    [Closer::AssertFalse] is -1. *)
Definition Closer_AssertFalse : Z := -1.

(** token_kind.rs 983-1001 [GroupOpenerToCloser] *)
Definition GroupOpenerToCloser (k : Z) : res Z :=
  switch k
    [ (TK_ColonColonOpenSquare, Ok TK_CloseSquare);
      (TK_LongName_LeftAngleBracket, Ok TK_LongName_RightAngleBracket);
      (TK_LongName_LeftAssociation, Ok TK_LongName_RightAssociation);
      (TK_LongName_LeftBracketingBar, Ok TK_LongName_RightBracketingBar);
      (TK_LongName_LeftCeiling, Ok TK_LongName_RightCeiling);
      (TK_LongName_LeftDoubleBracket, Ok TK_LongName_RightDoubleBracket);
      (TK_LongName_LeftDoubleBracketingBar, Ok TK_LongName_RightDoubleBracketingBar);
      (TK_LongName_LeftFloor, Ok TK_LongName_RightFloor);
      (TK_LessBar, Ok TK_BarGreater);
      (TK_OpenCurly, Ok TK_CloseCurly);
      (TK_LongName_OpenCurlyDoubleQuote, Ok TK_LongName_CloseCurlyDoubleQuote);
      (TK_LongName_OpenCurlyQuote, Ok TK_LongName_CloseCurlyQuote);
      (TK_OpenParen, Ok TK_CloseParen);
      (TK_OpenSquare, Ok TK_CloseSquare) ]
    Panic.

(** token_kind.rs 1004-1021 [TokenToCloser] *)
Definition TokenToCloser (k : Z) : Z :=
  switch k
    [ (TK_BarGreater, TK_BarGreater);
      (TK_CloseCurly, TK_CloseCurly);
      (TK_LongName_CloseCurlyDoubleQuote, TK_LongName_CloseCurlyDoubleQuote);
      (TK_LongName_CloseCurlyQuote, TK_LongName_CloseCurlyQuote);
      (TK_CloseParen, TK_CloseParen);
      (TK_CloseSquare, TK_CloseSquare);
      (TK_LongName_RightAngleBracket, TK_LongName_RightAngleBracket);
      (TK_LongName_RightAssociation, TK_LongName_RightAssociation);
      (TK_LongName_RightBracketingBar, TK_LongName_RightBracketingBar);
      (TK_LongName_RightCeiling, TK_LongName_RightCeiling);
      (TK_LongName_RightDoubleBracket, TK_LongName_RightDoubleBracket);
      (TK_LongName_RightDoubleBracketingBar, TK_LongName_RightDoubleBracketingBar);
      (TK_LongName_RightFloor, TK_LongName_RightFloor) ]
    Closer_AssertFalse.

(** ** Symbols *)

(** token_kind.rs 293-299 [to_symbol] *)
Definition tk_to_symbol (k : Z) : option string := assoc k KIND_SYMBOL.

(** First match arm whose pattern is the symbol. *)
Fixpoint find_symbol (s : string) (l : list (string * Z)) : option Z :=
  match l with
  | [] => None
  | (t, k) :: r => if String.eqb s t then Some k else find_symbol s r
  end.

(** token_kind.rs 276-291 [from_symbol]: match arms in declaration order *)
Definition tk_from_symbol (s : string) : option Z :=
  find_symbol s (map (fun p => (snd p, fst p)) KIND_SYMBOL).

(** operators.rs 455- [to_symbol], [try_from_symbol] of the nine operator families *)
Record family := mkfamily { f_all : list Z; f_to : list (Z * string); f_from : list (string * Z) }.
Definition FAMILIES : list family :=
  [ mkfamily IOP_ALL IOP_TO IOP_FROM; mkfamily PREOP_ALL PREOP_TO PREOP_FROM;
    mkfamily POSTOP_ALL POSTOP_TO POSTOP_FROM; mkfamily BOP_ALL BOP_TO BOP_FROM;
    mkfamily TOP_ALL TOP_TO TOP_FROM; mkfamily PBOP_ALL PBOP_TO PBOP_FROM;
    mkfamily COP_ALL COP_TO COP_FROM; mkfamily GOP_ALL GOP_TO GOP_FROM;
    mkfamily CALLOP_ALL CALLOP_TO CALLOP_FROM ].
Definition op_to_symbol (f : family) (x : Z) : option string := assoc x (f_to f).
Definition op_from_symbol (f : family) (s : string) : option Z := find_symbol s (f_from f).

(** operators.rs 423-452 [GroupOperator::try_to_call_operator] *)
Definition try_to_call_operator (g : Z) : res Z :=
  switch g
    [ (GOP_CodeParser_GroupSquare, Ok CALLOP_CodeParser_GroupSquare);
      (GOP_CodeParser_GroupTypeSpecifier, Ok CALLOP_CodeParser_GroupTypeSpecifier);
      (GOP_CodeParser_GroupDoubleBracket, Ok CALLOP_CodeParser_GroupDoubleBracket) ]
    Panic.

(** ** precedence.rs 32-41 [Precedence::greater].  An [Option<Precedence>] is a number,
    0 for [None]. *)
Definition prec_greater (lhs rhs : Z) : bool := rhs <? Z.lor lhs 1.
