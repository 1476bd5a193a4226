(** Generated by tools/conformance/from_rust_tests.py: the assertions of the Rust tests of the
    parser that the script can read, as facts about the model. Where tokens begin ([t_start]) is
    left out of the comparison. *)
From Coq Require Import String.
From Coq Require Import ZArith List Bool.
From Verif Require Import Base Source WLChar LongNames GenTokenKind GenPrec GenOps GenParselets Parselets TokenKind Tokenizer Cst Parser SpecParse ErrorReparse Ast Abstract PropsReader PropsAbstract.
Import ListNotations.
Local Open Scope list_scope.
Local Open Scope Z_scope.
Definition bare_token (t : token) : token := mktok (t_kind t) [] (t_text t) (t_src t).
Fixpoint strip (n : cst) : cst :=
  match n with
  | Tok t => Tok (bare_token t)
  | Call (Concrete h) m op b => Call (Concrete (map strip h)) m op (map strip b)
  | Call (Aggregate h) m op b => Call (Aggregate (strip h)) m op (map strip b)
  | SynErr e ch => SynErr e (map strip ch)
  | Op k op ch => Op k op (map strip ch)
  | BoxN k ch s => BoxN k (map strip ch) s
  | CodeN a b s => CodeN a b s
  end.
Definition char_opts : opts := mkopts ConvCharacterIndex 4 true true true (fun _ => false).
Definition agg1 (n : res cst) : res cst := rbind n (fun n => rbind (aggregate_cst n) (fun x => match x with Some m => Ok m | None => Panic end)).
Definition one_ast (o : opts) (input : list Z) : res ast := rbind (parse_cst o true NotScript input) (fun p => rbind (to_ast debug [fst p]) (fun l => match l with [a] => Ok a | _ => Panic end)).

(** tests.rs test_1p2 *)
Example rust_000_test_1p2 : (rmap (map bare_token) (tokenize default_opts NotScript [49;43;50])) = Ok [(mktok TK_Integer [] [49] (mkspan (LineCol 1 1) (LineCol 1 2))); (mktok TK_Plus [] [43] (mkspan (LineCol 1 2) (LineCol 1 3))); (mktok TK_Integer [] [50] (mkspan (LineCol 1 3) (LineCol 1 4)))].
Proof. vm_compute. reflexivity. Qed.

(** tests.rs test_something *)
Example rust_001_test_something : (rmap (map bare_token) (tokenize default_opts NotScript [49;50;51])) = Ok [(mktok TK_Integer [] [49;50;51] (mkspan (LineCol 1 1) (LineCol 1 4)))].
Proof. vm_compute. reflexivity. Qed.

(** tests.rs test_something *)
Example rust_002_test_something : (rmap (fun p => map strip (fst p)) (parse_cst_seq default_opts true NotScript [102;111;111])) = Ok [(Tok (mktok TK_Symbol [] [102;111;111] (mkspan (LineCol 1 1) (LineCol 1 4))))].
Proof. vm_compute. reflexivity. Qed.

(** tests.rs test_something *)
Example rust_003_test_something : (rmap (map bare_token) (tokenize default_opts NotScript [97;43;98])) = Ok [(mktok TK_Symbol [] [97] (mkspan (LineCol 1 1) (LineCol 1 2))); (mktok TK_Plus [] [43] (mkspan (LineCol 1 2) (LineCol 1 3))); (mktok TK_Symbol [] [98] (mkspan (LineCol 1 3) (LineCol 1 4)))].
Proof. vm_compute. reflexivity. Qed.

(** tests.rs test_something *)
Example rust_004_test_something : (rmap (map bare_token) (tokenize default_opts NotScript [33;97])) = Ok [(mktok TK_Bang [] [33] (mkspan (LineCol 1 1) (LineCol 1 2))); (mktok TK_Symbol [] [97] (mkspan (LineCol 1 2) (LineCol 1 3)))].
Proof. vm_compute. reflexivity. Qed.

(** tests.rs test_something *)
Example rust_005_test_something : (rmap (map bare_token) (tokenize default_opts NotScript [50;32;43;32;50])) = Ok [(mktok TK_Integer [] [50] (mkspan (LineCol 1 1) (LineCol 1 2))); (mktok TK_Whitespace [] [32] (mkspan (LineCol 1 2) (LineCol 1 3))); (mktok TK_Plus [] [43] (mkspan (LineCol 1 3) (LineCol 1 4))); (mktok TK_Whitespace [] [32] (mkspan (LineCol 1 4) (LineCol 1 5))); (mktok TK_Integer [] [50] (mkspan (LineCol 1 5) (LineCol 1 6)))].
Proof. vm_compute. reflexivity. Qed.

(** tests.rs test_something *)
Example rust_006_test_something : (rmap (fun p => map strip (fst p)) (parse_cst_seq default_opts true NotScript [50;32;43;32;50])) = Ok [(Op KInfix IOP_Plus [(Tok (mktok TK_Integer [] [50] (mkspan (LineCol 1 1) (LineCol 1 2)))); (Tok (mktok TK_Whitespace [] [32] (mkspan (LineCol 1 2) (LineCol 1 3)))); (Tok (mktok TK_Plus [] [43] (mkspan (LineCol 1 3) (LineCol 1 4)))); (Tok (mktok TK_Whitespace [] [32] (mkspan (LineCol 1 4) (LineCol 1 5)))); (Tok (mktok TK_Integer [] [50] (mkspan (LineCol 1 5) (LineCol 1 6))))])].
Proof. vm_compute. reflexivity. Qed.

(** tests.rs test_something *)
Example rust_007_test_something_src : get_source (Op KInfix IOP_Plus [(Tok (mktok TK_Integer [] [50] (mkspan (LineCol 1 1) (LineCol 1 2)))); (Tok (mktok TK_Whitespace [] [32] (mkspan (LineCol 1 2) (LineCol 1 3)))); (Tok (mktok TK_Plus [] [43] (mkspan (LineCol 1 3) (LineCol 1 4)))); (Tok (mktok TK_Whitespace [] [32] (mkspan (LineCol 1 4) (LineCol 1 5)))); (Tok (mktok TK_Integer [] [50] (mkspan (LineCol 1 5) (LineCol 1 6))))]) = Ok (mkspan (LineCol 1 1) (LineCol 1 6)).
Proof. vm_compute. reflexivity. Qed.

(** tests.rs test_call_head_seq *)
Example rust_008_test_call_head_seq : (rmap (fun p => strip (fst p)) (parse_cst default_opts true NotScript [102;91;120;93])) = Ok (Call (Concrete [(Tok (mktok TK_Symbol [] [102] (mkspan (LineCol 1 1) (LineCol 1 2))))]) false CALLOP_CodeParser_GroupSquare [(Tok (mktok TK_OpenSquare [] [91] (mkspan (LineCol 1 2) (LineCol 1 3)))); (Tok (mktok TK_Symbol [] [120] (mkspan (LineCol 1 3) (LineCol 1 4)))); (Tok (mktok TK_CloseSquare [] [93] (mkspan (LineCol 1 4) (LineCol 1 5))))]).
Proof. vm_compute. reflexivity. Qed.

(** tests.rs test_call_head_seq *)
Example rust_009_test_call_head_seq_src : get_source (Call (Concrete [(Tok (mktok TK_Symbol [] [102] (mkspan (LineCol 1 1) (LineCol 1 2))))]) false CALLOP_CodeParser_GroupSquare [(Tok (mktok TK_OpenSquare [] [91] (mkspan (LineCol 1 2) (LineCol 1 3)))); (Tok (mktok TK_Symbol [] [120] (mkspan (LineCol 1 3) (LineCol 1 4)))); (Tok (mktok TK_CloseSquare [] [93] (mkspan (LineCol 1 4) (LineCol 1 5))))]) = Ok (mkspan (LineCol 1 1) (LineCol 1 5)).
Proof. vm_compute. reflexivity. Qed.

(** tests.rs test_call_head_seq *)
Example rust_010_test_call_head_seq : (rmap (fun p => strip (fst p)) (parse_cst default_opts true NotScript [102;32;40;42;32;104;101;108;108;111;32;42;41;91;120;93])) = Ok (Call (Concrete [(Tok (mktok TK_Symbol [] [102] (mkspan (LineCol 1 1) (LineCol 1 2)))); (Tok (mktok TK_Whitespace [] [32] (mkspan (LineCol 1 2) (LineCol 1 3)))); (Tok (mktok TK_Comment [] [40;42;32;104;101;108;108;111;32;42;41] (mkspan (LineCol 1 3) (LineCol 1 14))))]) false CALLOP_CodeParser_GroupSquare [(Tok (mktok TK_OpenSquare [] [91] (mkspan (LineCol 1 14) (LineCol 1 15)))); (Tok (mktok TK_Symbol [] [120] (mkspan (LineCol 1 15) (LineCol 1 16)))); (Tok (mktok TK_CloseSquare [] [93] (mkspan (LineCol 1 16) (LineCol 1 17))))]).
Proof. vm_compute. reflexivity. Qed.

(** tests.rs test_call_head_seq *)
Example rust_011_test_call_head_seq_src : get_source (Call (Concrete [(Tok (mktok TK_Symbol [] [102] (mkspan (LineCol 1 1) (LineCol 1 2)))); (Tok (mktok TK_Whitespace [] [32] (mkspan (LineCol 1 2) (LineCol 1 3)))); (Tok (mktok TK_Comment [] [40;42;32;104;101;108;108;111;32;42;41] (mkspan (LineCol 1 3) (LineCol 1 14))))]) false CALLOP_CodeParser_GroupSquare [(Tok (mktok TK_OpenSquare [] [91] (mkspan (LineCol 1 14) (LineCol 1 15)))); (Tok (mktok TK_Symbol [] [120] (mkspan (LineCol 1 15) (LineCol 1 16)))); (Tok (mktok TK_CloseSquare [] [93] (mkspan (LineCol 1 16) (LineCol 1 17))))]) = Ok (mkspan (LineCol 1 1) (LineCol 1 17)).
Proof. vm_compute. reflexivity. Qed.

(** tests.rs test_call_head_seq *)
Example rust_012_test_call_head_seq : (rmap (fun p => map strip (fst p)) (parse_cst_seq default_opts true NotScript [40;42;32;104;101;108;108;111;32;42;41;32;102;91;120;93])) = Ok [(Tok (mktok TK_Comment [] [40;42;32;104;101;108;108;111;32;42;41] (mkspan (LineCol 1 1) (LineCol 1 12)))); (Tok (mktok TK_Whitespace [] [32] (mkspan (LineCol 1 12) (LineCol 1 13)))); (Call (Concrete [(Tok (mktok TK_Symbol [] [102] (mkspan (LineCol 1 13) (LineCol 1 14))))]) false CALLOP_CodeParser_GroupSquare [(Tok (mktok TK_OpenSquare [] [91] (mkspan (LineCol 1 14) (LineCol 1 15)))); (Tok (mktok TK_Symbol [] [120] (mkspan (LineCol 1 15) (LineCol 1 16)))); (Tok (mktok TK_CloseSquare [] [93] (mkspan (LineCol 1 16) (LineCol 1 17))))])].
Proof. vm_compute. reflexivity. Qed.

(** tests.rs test_call_head_seq *)
Example rust_013_test_call_head_seq : (rmap (fun p => strip (fst p)) (parse_cst default_opts true NotScript [102;111;111;91;40;42;32;104;101;108;108;111;32;42;41;32;98;97;114;91;120;93;93])) = Ok (Call (Concrete [(Tok (mktok TK_Symbol [] [102;111;111] (mkspan (LineCol 1 1) (LineCol 1 4))))]) false CALLOP_CodeParser_GroupSquare [(Tok (mktok TK_OpenSquare [] [91] (mkspan (LineCol 1 4) (LineCol 1 5)))); (Tok (mktok TK_Comment [] [40;42;32;104;101;108;108;111;32;42;41] (mkspan (LineCol 1 5) (LineCol 1 16)))); (Tok (mktok TK_Whitespace [] [32] (mkspan (LineCol 1 16) (LineCol 1 17)))); (Call (Concrete [(Tok (mktok TK_Symbol [] [98;97;114] (mkspan (LineCol 1 17) (LineCol 1 20))))]) false CALLOP_CodeParser_GroupSquare [(Tok (mktok TK_OpenSquare [] [91] (mkspan (LineCol 1 20) (LineCol 1 21)))); (Tok (mktok TK_Symbol [] [120] (mkspan (LineCol 1 21) (LineCol 1 22)))); (Tok (mktok TK_CloseSquare [] [93] (mkspan (LineCol 1 22) (LineCol 1 23))))]); (Tok (mktok TK_CloseSquare [] [93] (mkspan (LineCol 1 23) (LineCol 1 24))))]).
Proof. vm_compute. reflexivity. Qed.

(** tests.rs test_call_head_seq *)
Example rust_014_test_call_head_seq_src : get_source (Call (Concrete [(Tok (mktok TK_Symbol [] [102;111;111] (mkspan (LineCol 1 1) (LineCol 1 4))))]) false CALLOP_CodeParser_GroupSquare [(Tok (mktok TK_OpenSquare [] [91] (mkspan (LineCol 1 4) (LineCol 1 5)))); (Tok (mktok TK_Comment [] [40;42;32;104;101;108;108;111;32;42;41] (mkspan (LineCol 1 5) (LineCol 1 16)))); (Tok (mktok TK_Whitespace [] [32] (mkspan (LineCol 1 16) (LineCol 1 17)))); (Call (Concrete [(Tok (mktok TK_Symbol [] [98;97;114] (mkspan (LineCol 1 17) (LineCol 1 20))))]) false CALLOP_CodeParser_GroupSquare [(Tok (mktok TK_OpenSquare [] [91] (mkspan (LineCol 1 20) (LineCol 1 21)))); (Tok (mktok TK_Symbol [] [120] (mkspan (LineCol 1 21) (LineCol 1 22)))); (Tok (mktok TK_CloseSquare [] [93] (mkspan (LineCol 1 22) (LineCol 1 23))))]); (Tok (mktok TK_CloseSquare [] [93] (mkspan (LineCol 1 23) (LineCol 1 24))))]) = Ok (mkspan (LineCol 1 1) (LineCol 1 24)).
Proof. vm_compute. reflexivity. Qed.

(** tests.rs test_character_index_source *)
Example rust_015_test_character_index_source : (rmap (fun p => map strip (fst p)) (parse_cst_seq char_opts true NotScript [50;43;50])) = Ok [(Op KInfix IOP_Plus [(Tok (mktok TK_Integer [] [50] (mkspan (CharIdx 1) (CharIdx 2)))); (Tok (mktok TK_Plus [] [43] (mkspan (CharIdx 2) (CharIdx 3)))); (Tok (mktok TK_Integer [] [50] (mkspan (CharIdx 3) (CharIdx 4))))])].
Proof. vm_compute. reflexivity. Qed.

(** tests.rs test_character_index_source *)
Example rust_016_test_character_index_source_src : get_source (Op KInfix IOP_Plus [(Tok (mktok TK_Integer [] [50] (mkspan (CharIdx 1) (CharIdx 2)))); (Tok (mktok TK_Plus [] [43] (mkspan (CharIdx 2) (CharIdx 3)))); (Tok (mktok TK_Integer [] [50] (mkspan (CharIdx 3) (CharIdx 4))))]) = Ok (mkspan (CharIdx 1) (CharIdx 4)).
Proof. vm_compute. reflexivity. Qed.

(** tests.rs test_unterminated_group_reparse *)
Example rust_017_test_unterminated_group_reparse : (rmap (fun p => strip (fst p)) (parse_cst default_opts true NotScript [34;10])) = Ok (Tok (mktok TK_Error_UnterminatedString [] [34] (mkspan (LineCol 1 1) (LineCol 1 2)))).
Proof. vm_compute. reflexivity. Qed.

(** tests.rs test_unterminated_group_reparse *)
Example rust_018_test_unterminated_group_reparse : (rmap (fun p => map strip (fst p)) (parse_cst_seq char_opts true NotScript [34;10])) = Ok [(Tok (mktok TK_Error_UnterminatedString [] [34;10] (mkspan (CharIdx 1) (CharIdx 3))))].
Proof. vm_compute. reflexivity. Qed.

(** tests.rs test_unterminated_group_reparse *)
Example rust_019_test_unterminated_group_reparse : (rmap (fun p => strip (fst p)) (parse_cst default_opts true NotScript [60;124;9;63])) = Ok (Op KGroupMissingCloser GOP_Association [(Tok (mktok TK_LessBar [] [60;124] (mkspan (LineCol 1 1) (LineCol 1 3)))); (Tok (mktok TK_Whitespace [] [9] (mkspan (LineCol 1 3) (LineCol 1 5)))); (Tok (mktok TK_Error_ExpectedOperand [] [] (mkspan (LineCol 1 5) (LineCol 1 5)))); (Tok (mktok TK_Question [] [63] (mkspan (LineCol 1 5) (LineCol 1 6)))); (Tok (mktok TK_Error_ExpectedOperand [] [] (mkspan (LineCol 1 6) (LineCol 1 6))))]).
Proof. vm_compute. reflexivity. Qed.

(** tests.rs test_unterminated_group_reparse *)
Example rust_020_test_unterminated_group_reparse_src : get_source (Op KGroupMissingCloser GOP_Association [(Tok (mktok TK_LessBar [] [60;124] (mkspan (LineCol 1 1) (LineCol 1 3)))); (Tok (mktok TK_Whitespace [] [9] (mkspan (LineCol 1 3) (LineCol 1 5)))); (Tok (mktok TK_Error_ExpectedOperand [] [] (mkspan (LineCol 1 5) (LineCol 1 5)))); (Tok (mktok TK_Question [] [63] (mkspan (LineCol 1 5) (LineCol 1 6)))); (Tok (mktok TK_Error_ExpectedOperand [] [] (mkspan (LineCol 1 6) (LineCol 1 6))))]) = Ok (mkspan (LineCol 1 1) (LineCol 1 6)).
Proof. vm_compute. reflexivity. Qed.

(** tests/test_parse_cst.rs ternary_tag_set *)
Example rust_021_ternary_tag_set : (rmap (fun p => strip (fst p)) (parse_cst default_opts true NotScript [97;32;47;58;32;98;91;97;93;32;61;32;99])) = Ok (Op KTernary TOP_TagSet [(Tok (mktok TK_Symbol [] [97] (mkspan (LineCol 1 1) (LineCol 1 2)))); (Tok (mktok TK_Whitespace [] [32] (mkspan (LineCol 1 2) (LineCol 1 3)))); (Tok (mktok TK_SlashColon [] [47;58] (mkspan (LineCol 1 3) (LineCol 1 5)))); (Tok (mktok TK_Whitespace [] [32] (mkspan (LineCol 1 5) (LineCol 1 6)))); (Call (Concrete [(Tok (mktok TK_Symbol [] [98] (mkspan (LineCol 1 6) (LineCol 1 7))))]) false CALLOP_CodeParser_GroupSquare [(Tok (mktok TK_OpenSquare [] [91] (mkspan (LineCol 1 7) (LineCol 1 8)))); (Tok (mktok TK_Symbol [] [97] (mkspan (LineCol 1 8) (LineCol 1 9)))); (Tok (mktok TK_CloseSquare [] [93] (mkspan (LineCol 1 9) (LineCol 1 10))))]); (Tok (mktok TK_Whitespace [] [32] (mkspan (LineCol 1 10) (LineCol 1 11)))); (Tok (mktok TK_Equal [] [61] (mkspan (LineCol 1 11) (LineCol 1 12)))); (Tok (mktok TK_Whitespace [] [32] (mkspan (LineCol 1 12) (LineCol 1 13)))); (Tok (mktok TK_Symbol [] [99] (mkspan (LineCol 1 13) (LineCol 1 14))))]).
Proof. vm_compute. reflexivity. Qed.

(** tests/test_parse_cst.rs ternary_tag_set *)
Example rust_022_ternary_tag_set_src : get_source (Call (Concrete [(Tok (mktok TK_Symbol [] [98] (mkspan (LineCol 1 6) (LineCol 1 7))))]) false CALLOP_CodeParser_GroupSquare [(Tok (mktok TK_OpenSquare [] [91] (mkspan (LineCol 1 7) (LineCol 1 8)))); (Tok (mktok TK_Symbol [] [97] (mkspan (LineCol 1 8) (LineCol 1 9)))); (Tok (mktok TK_CloseSquare [] [93] (mkspan (LineCol 1 9) (LineCol 1 10))))]) = Ok (mkspan (LineCol 1 6) (LineCol 1 10)).
Proof. vm_compute. reflexivity. Qed.

(** tests/test_parse_cst.rs ternary_tag_set *)
Example rust_023_ternary_tag_set_src : get_source (Op KTernary TOP_TagSet [(Tok (mktok TK_Symbol [] [97] (mkspan (LineCol 1 1) (LineCol 1 2)))); (Tok (mktok TK_Whitespace [] [32] (mkspan (LineCol 1 2) (LineCol 1 3)))); (Tok (mktok TK_SlashColon [] [47;58] (mkspan (LineCol 1 3) (LineCol 1 5)))); (Tok (mktok TK_Whitespace [] [32] (mkspan (LineCol 1 5) (LineCol 1 6)))); (Call (Concrete [(Tok (mktok TK_Symbol [] [98] (mkspan (LineCol 1 6) (LineCol 1 7))))]) false CALLOP_CodeParser_GroupSquare [(Tok (mktok TK_OpenSquare [] [91] (mkspan (LineCol 1 7) (LineCol 1 8)))); (Tok (mktok TK_Symbol [] [97] (mkspan (LineCol 1 8) (LineCol 1 9)))); (Tok (mktok TK_CloseSquare [] [93] (mkspan (LineCol 1 9) (LineCol 1 10))))]); (Tok (mktok TK_Whitespace [] [32] (mkspan (LineCol 1 10) (LineCol 1 11)))); (Tok (mktok TK_Equal [] [61] (mkspan (LineCol 1 11) (LineCol 1 12)))); (Tok (mktok TK_Whitespace [] [32] (mkspan (LineCol 1 12) (LineCol 1 13)))); (Tok (mktok TK_Symbol [] [99] (mkspan (LineCol 1 13) (LineCol 1 14))))]) = Ok (mkspan (LineCol 1 1) (LineCol 1 14)).
Proof. vm_compute. reflexivity. Qed.

(** tests/test_parse_cst.rs ternary_tag_set *)
Example rust_024_ternary_tag_set : (rmap (fun p => strip (fst p)) (parse_cst default_opts true NotScript [97;32;47;58;32;98;32;61;32;40;99;32;61;32;100;41])) = Ok (Op KTernary TOP_TagSet [(Tok (mktok TK_Symbol [] [97] (mkspan (LineCol 1 1) (LineCol 1 2)))); (Tok (mktok TK_Whitespace [] [32] (mkspan (LineCol 1 2) (LineCol 1 3)))); (Tok (mktok TK_SlashColon [] [47;58] (mkspan (LineCol 1 3) (LineCol 1 5)))); (Tok (mktok TK_Whitespace [] [32] (mkspan (LineCol 1 5) (LineCol 1 6)))); (Tok (mktok TK_Symbol [] [98] (mkspan (LineCol 1 6) (LineCol 1 7)))); (Tok (mktok TK_Whitespace [] [32] (mkspan (LineCol 1 7) (LineCol 1 8)))); (Tok (mktok TK_Equal [] [61] (mkspan (LineCol 1 8) (LineCol 1 9)))); (Tok (mktok TK_Whitespace [] [32] (mkspan (LineCol 1 9) (LineCol 1 10)))); (Op KGroup GOP_CodeParser_GroupParen [(Tok (mktok TK_OpenParen [] [40] (mkspan (LineCol 1 10) (LineCol 1 11)))); (Op KBinary BOP_Set [(Tok (mktok TK_Symbol [] [99] (mkspan (LineCol 1 11) (LineCol 1 12)))); (Tok (mktok TK_Whitespace [] [32] (mkspan (LineCol 1 12) (LineCol 1 13)))); (Tok (mktok TK_Equal [] [61] (mkspan (LineCol 1 13) (LineCol 1 14)))); (Tok (mktok TK_Whitespace [] [32] (mkspan (LineCol 1 14) (LineCol 1 15)))); (Tok (mktok TK_Symbol [] [100] (mkspan (LineCol 1 15) (LineCol 1 16))))]); (Tok (mktok TK_CloseParen [] [41] (mkspan (LineCol 1 16) (LineCol 1 17))))])]).
Proof. vm_compute. reflexivity. Qed.

(** tests/test_parse_cst.rs ternary_tag_set *)
Example rust_025_ternary_tag_set_src : get_source (Op KBinary BOP_Set [(Tok (mktok TK_Symbol [] [99] (mkspan (LineCol 1 11) (LineCol 1 12)))); (Tok (mktok TK_Whitespace [] [32] (mkspan (LineCol 1 12) (LineCol 1 13)))); (Tok (mktok TK_Equal [] [61] (mkspan (LineCol 1 13) (LineCol 1 14)))); (Tok (mktok TK_Whitespace [] [32] (mkspan (LineCol 1 14) (LineCol 1 15)))); (Tok (mktok TK_Symbol [] [100] (mkspan (LineCol 1 15) (LineCol 1 16))))]) = Ok (mkspan (LineCol 1 11) (LineCol 1 16)).
Proof. vm_compute. reflexivity. Qed.

(** tests/test_parse_cst.rs ternary_tag_set *)
Example rust_026_ternary_tag_set_src : get_source (Op KGroup GOP_CodeParser_GroupParen [(Tok (mktok TK_OpenParen [] [40] (mkspan (LineCol 1 10) (LineCol 1 11)))); (Op KBinary BOP_Set [(Tok (mktok TK_Symbol [] [99] (mkspan (LineCol 1 11) (LineCol 1 12)))); (Tok (mktok TK_Whitespace [] [32] (mkspan (LineCol 1 12) (LineCol 1 13)))); (Tok (mktok TK_Equal [] [61] (mkspan (LineCol 1 13) (LineCol 1 14)))); (Tok (mktok TK_Whitespace [] [32] (mkspan (LineCol 1 14) (LineCol 1 15)))); (Tok (mktok TK_Symbol [] [100] (mkspan (LineCol 1 15) (LineCol 1 16))))]); (Tok (mktok TK_CloseParen [] [41] (mkspan (LineCol 1 16) (LineCol 1 17))))]) = Ok (mkspan (LineCol 1 10) (LineCol 1 17)).
Proof. vm_compute. reflexivity. Qed.

(** tests/test_parse_cst.rs ternary_tag_set *)
Example rust_027_ternary_tag_set_src : get_source (Op KTernary TOP_TagSet [(Tok (mktok TK_Symbol [] [97] (mkspan (LineCol 1 1) (LineCol 1 2)))); (Tok (mktok TK_Whitespace [] [32] (mkspan (LineCol 1 2) (LineCol 1 3)))); (Tok (mktok TK_SlashColon [] [47;58] (mkspan (LineCol 1 3) (LineCol 1 5)))); (Tok (mktok TK_Whitespace [] [32] (mkspan (LineCol 1 5) (LineCol 1 6)))); (Tok (mktok TK_Symbol [] [98] (mkspan (LineCol 1 6) (LineCol 1 7)))); (Tok (mktok TK_Whitespace [] [32] (mkspan (LineCol 1 7) (LineCol 1 8)))); (Tok (mktok TK_Equal [] [61] (mkspan (LineCol 1 8) (LineCol 1 9)))); (Tok (mktok TK_Whitespace [] [32] (mkspan (LineCol 1 9) (LineCol 1 10)))); (Op KGroup GOP_CodeParser_GroupParen [(Tok (mktok TK_OpenParen [] [40] (mkspan (LineCol 1 10) (LineCol 1 11)))); (Op KBinary BOP_Set [(Tok (mktok TK_Symbol [] [99] (mkspan (LineCol 1 11) (LineCol 1 12)))); (Tok (mktok TK_Whitespace [] [32] (mkspan (LineCol 1 12) (LineCol 1 13)))); (Tok (mktok TK_Equal [] [61] (mkspan (LineCol 1 13) (LineCol 1 14)))); (Tok (mktok TK_Whitespace [] [32] (mkspan (LineCol 1 14) (LineCol 1 15)))); (Tok (mktok TK_Symbol [] [100] (mkspan (LineCol 1 15) (LineCol 1 16))))]); (Tok (mktok TK_CloseParen [] [41] (mkspan (LineCol 1 16) (LineCol 1 17))))])]) = Ok (mkspan (LineCol 1 1) (LineCol 1 17)).
Proof. vm_compute. reflexivity. Qed.

(** tests/test_parse_cst.rs ternary_tag_unset *)
Example rust_028_ternary_tag_unset : (rmap (fun p => strip (fst p)) (parse_cst default_opts true NotScript [97;32;47;58;32;98;91;97;93;32;61;46])) = Ok (Op KTernary TOP_TagUnset [(Tok (mktok TK_Symbol [] [97] (mkspan (LineCol 1 1) (LineCol 1 2)))); (Tok (mktok TK_Whitespace [] [32] (mkspan (LineCol 1 2) (LineCol 1 3)))); (Tok (mktok TK_SlashColon [] [47;58] (mkspan (LineCol 1 3) (LineCol 1 5)))); (Tok (mktok TK_Whitespace [] [32] (mkspan (LineCol 1 5) (LineCol 1 6)))); (Call (Concrete [(Tok (mktok TK_Symbol [] [98] (mkspan (LineCol 1 6) (LineCol 1 7))))]) false CALLOP_CodeParser_GroupSquare [(Tok (mktok TK_OpenSquare [] [91] (mkspan (LineCol 1 7) (LineCol 1 8)))); (Tok (mktok TK_Symbol [] [97] (mkspan (LineCol 1 8) (LineCol 1 9)))); (Tok (mktok TK_CloseSquare [] [93] (mkspan (LineCol 1 9) (LineCol 1 10))))]); (Tok (mktok TK_Whitespace [] [32] (mkspan (LineCol 1 10) (LineCol 1 11)))); (Tok (mktok TK_Equal [] [61] (mkspan (LineCol 1 11) (LineCol 1 12)))); (Tok (mktok TK_Dot [] [46] (mkspan (LineCol 1 12) (LineCol 1 13))))]).
Proof. vm_compute. reflexivity. Qed.

(** tests/test_parse_cst.rs ternary_tag_unset *)
Example rust_029_ternary_tag_unset_src : get_source (Call (Concrete [(Tok (mktok TK_Symbol [] [98] (mkspan (LineCol 1 6) (LineCol 1 7))))]) false CALLOP_CodeParser_GroupSquare [(Tok (mktok TK_OpenSquare [] [91] (mkspan (LineCol 1 7) (LineCol 1 8)))); (Tok (mktok TK_Symbol [] [97] (mkspan (LineCol 1 8) (LineCol 1 9)))); (Tok (mktok TK_CloseSquare [] [93] (mkspan (LineCol 1 9) (LineCol 1 10))))]) = Ok (mkspan (LineCol 1 6) (LineCol 1 10)).
Proof. vm_compute. reflexivity. Qed.

(** tests/test_parse_cst.rs ternary_tag_unset *)
Example rust_030_ternary_tag_unset_src : get_source (Op KTernary TOP_TagUnset [(Tok (mktok TK_Symbol [] [97] (mkspan (LineCol 1 1) (LineCol 1 2)))); (Tok (mktok TK_Whitespace [] [32] (mkspan (LineCol 1 2) (LineCol 1 3)))); (Tok (mktok TK_SlashColon [] [47;58] (mkspan (LineCol 1 3) (LineCol 1 5)))); (Tok (mktok TK_Whitespace [] [32] (mkspan (LineCol 1 5) (LineCol 1 6)))); (Call (Concrete [(Tok (mktok TK_Symbol [] [98] (mkspan (LineCol 1 6) (LineCol 1 7))))]) false CALLOP_CodeParser_GroupSquare [(Tok (mktok TK_OpenSquare [] [91] (mkspan (LineCol 1 7) (LineCol 1 8)))); (Tok (mktok TK_Symbol [] [97] (mkspan (LineCol 1 8) (LineCol 1 9)))); (Tok (mktok TK_CloseSquare [] [93] (mkspan (LineCol 1 9) (LineCol 1 10))))]); (Tok (mktok TK_Whitespace [] [32] (mkspan (LineCol 1 10) (LineCol 1 11)))); (Tok (mktok TK_Equal [] [61] (mkspan (LineCol 1 11) (LineCol 1 12)))); (Tok (mktok TK_Dot [] [46] (mkspan (LineCol 1 12) (LineCol 1 13))))]) = Ok (mkspan (LineCol 1 1) (LineCol 1 13)).
Proof. vm_compute. reflexivity. Qed.

(** tests/test_parse_cst.rs ternary_tag_unset *)
Example rust_031_ternary_tag_unset : (rmap (fun p => strip (fst p)) (parse_cst default_opts true NotScript [97;32;47;58;32;98;91;97;93;32;61;32;46])) = Ok (Op KTernary TOP_TagUnset [(Tok (mktok TK_Symbol [] [97] (mkspan (LineCol 1 1) (LineCol 1 2)))); (Tok (mktok TK_Whitespace [] [32] (mkspan (LineCol 1 2) (LineCol 1 3)))); (Tok (mktok TK_SlashColon [] [47;58] (mkspan (LineCol 1 3) (LineCol 1 5)))); (Tok (mktok TK_Whitespace [] [32] (mkspan (LineCol 1 5) (LineCol 1 6)))); (Call (Concrete [(Tok (mktok TK_Symbol [] [98] (mkspan (LineCol 1 6) (LineCol 1 7))))]) false CALLOP_CodeParser_GroupSquare [(Tok (mktok TK_OpenSquare [] [91] (mkspan (LineCol 1 7) (LineCol 1 8)))); (Tok (mktok TK_Symbol [] [97] (mkspan (LineCol 1 8) (LineCol 1 9)))); (Tok (mktok TK_CloseSquare [] [93] (mkspan (LineCol 1 9) (LineCol 1 10))))]); (Tok (mktok TK_Whitespace [] [32] (mkspan (LineCol 1 10) (LineCol 1 11)))); (Tok (mktok TK_Equal [] [61] (mkspan (LineCol 1 11) (LineCol 1 12)))); (Tok (mktok TK_Whitespace [] [32] (mkspan (LineCol 1 12) (LineCol 1 13)))); (Tok (mktok TK_Dot [] [46] (mkspan (LineCol 1 13) (LineCol 1 14))))]).
Proof. vm_compute. reflexivity. Qed.

(** tests/test_parse_cst.rs ternary_tag_unset *)
Example rust_032_ternary_tag_unset_src : get_source (Call (Concrete [(Tok (mktok TK_Symbol [] [98] (mkspan (LineCol 1 6) (LineCol 1 7))))]) false CALLOP_CodeParser_GroupSquare [(Tok (mktok TK_OpenSquare [] [91] (mkspan (LineCol 1 7) (LineCol 1 8)))); (Tok (mktok TK_Symbol [] [97] (mkspan (LineCol 1 8) (LineCol 1 9)))); (Tok (mktok TK_CloseSquare [] [93] (mkspan (LineCol 1 9) (LineCol 1 10))))]) = Ok (mkspan (LineCol 1 6) (LineCol 1 10)).
Proof. vm_compute. reflexivity. Qed.

(** tests/test_parse_cst.rs ternary_tag_unset *)
Example rust_033_ternary_tag_unset_src : get_source (Op KTernary TOP_TagUnset [(Tok (mktok TK_Symbol [] [97] (mkspan (LineCol 1 1) (LineCol 1 2)))); (Tok (mktok TK_Whitespace [] [32] (mkspan (LineCol 1 2) (LineCol 1 3)))); (Tok (mktok TK_SlashColon [] [47;58] (mkspan (LineCol 1 3) (LineCol 1 5)))); (Tok (mktok TK_Whitespace [] [32] (mkspan (LineCol 1 5) (LineCol 1 6)))); (Call (Concrete [(Tok (mktok TK_Symbol [] [98] (mkspan (LineCol 1 6) (LineCol 1 7))))]) false CALLOP_CodeParser_GroupSquare [(Tok (mktok TK_OpenSquare [] [91] (mkspan (LineCol 1 7) (LineCol 1 8)))); (Tok (mktok TK_Symbol [] [97] (mkspan (LineCol 1 8) (LineCol 1 9)))); (Tok (mktok TK_CloseSquare [] [93] (mkspan (LineCol 1 9) (LineCol 1 10))))]); (Tok (mktok TK_Whitespace [] [32] (mkspan (LineCol 1 10) (LineCol 1 11)))); (Tok (mktok TK_Equal [] [61] (mkspan (LineCol 1 11) (LineCol 1 12)))); (Tok (mktok TK_Whitespace [] [32] (mkspan (LineCol 1 12) (LineCol 1 13)))); (Tok (mktok TK_Dot [] [46] (mkspan (LineCol 1 13) (LineCol 1 14))))]) = Ok (mkspan (LineCol 1 1) (LineCol 1 14)).
Proof. vm_compute. reflexivity. Qed.

(** tests/test_parse_cst.rs test_prefix_binary_integral *)
Example rust_034_test_prefix_binary_integral : (rmap (fun p => strip (fst p)) (parse_cst default_opts true NotScript [92;91;73;110;116;101;103;114;97;108;93;32;102;32;92;91;68;105;102;102;101;114;101;110;116;105;97;108;68;93;32;120])) = Ok (Op KPrefixBinary PBOP_Integrate [(Tok (mktok TK_LongName_Integral [] [92;91;73;110;116;101;103;114;97;108;93] (mkspan (LineCol 1 1) (LineCol 1 12)))); (Tok (mktok TK_Whitespace [] [32] (mkspan (LineCol 1 12) (LineCol 1 13)))); (Tok (mktok TK_Symbol [] [102] (mkspan (LineCol 1 13) (LineCol 1 14)))); (Tok (mktok TK_Whitespace [] [32] (mkspan (LineCol 1 14) (LineCol 1 15)))); (Op KPrefix PREOP_DifferentialD [(Tok (mktok TK_LongName_DifferentialD [] [92;91;68;105;102;102;101;114;101;110;116;105;97;108;68;93] (mkspan (LineCol 1 15) (LineCol 1 31)))); (Tok (mktok TK_Whitespace [] [32] (mkspan (LineCol 1 31) (LineCol 1 32)))); (Tok (mktok TK_Symbol [] [120] (mkspan (LineCol 1 32) (LineCol 1 33))))])]).
Proof. vm_compute. reflexivity. Qed.

(** tests/test_parse_cst.rs test_prefix_binary_integral *)
Example rust_035_test_prefix_binary_integral : (rmap (fun p => strip (fst p)) (parse_cst default_opts true NotScript [92;91;73;110;116;101;103;114;97;108;93;32;92;91;68;105;102;102;101;114;101;110;116;105;97;108;68;93;32;120])) = Ok (Op KPrefixBinary PBOP_Integrate [(Tok (mktok TK_LongName_Integral [] [92;91;73;110;116;101;103;114;97;108;93] (mkspan (LineCol 1 1) (LineCol 1 12)))); (Tok (mktok TK_Whitespace [] [32] (mkspan (LineCol 1 12) (LineCol 1 13)))); (Tok (mktok TK_Fake_ImplicitOne [] [] (mkspan (LineCol 1 13) (LineCol 1 13)))); (Op KPrefix PREOP_DifferentialD [(Tok (mktok TK_LongName_DifferentialD [] [92;91;68;105;102;102;101;114;101;110;116;105;97;108;68;93] (mkspan (LineCol 1 13) (LineCol 1 29)))); (Tok (mktok TK_Whitespace [] [32] (mkspan (LineCol 1 29) (LineCol 1 30)))); (Tok (mktok TK_Symbol [] [120] (mkspan (LineCol 1 30) (LineCol 1 31))))])]).
Proof. vm_compute. reflexivity. Qed.

(** tests/test_parse_cst.rs test_prefix_binary_integral *)
Example rust_036_test_prefix_binary_integral : (rmap (fun p => strip (fst p)) (parse_cst default_opts true NotScript [92;91;73;110;116;101;103;114;97;108;93;32;102])) = Ok (Op KPrefix PREOP_Integral [(Tok (mktok TK_LongName_Integral [] [92;91;73;110;116;101;103;114;97;108;93] (mkspan (LineCol 1 1) (LineCol 1 12)))); (Tok (mktok TK_Whitespace [] [32] (mkspan (LineCol 1 12) (LineCol 1 13)))); (Tok (mktok TK_Symbol [] [102] (mkspan (LineCol 1 13) (LineCol 1 14))))]).
Proof. vm_compute. reflexivity. Qed.

(** tests/test_parse_cst.rs test_prefix_binary_integral *)
Example rust_037_test_prefix_binary_integral : (rbind (agg1 (rmap (fun p => strip (fst p)) (parse_cst default_opts true NotScript [92;91;73;110;116;101;103;114;97;108;93;32;102]))) (abstract_cst (mk_aopts true true false false quoted))) = Ok (ACall (ALeaf TK_Symbol [73;110;116;101;103;114;97;108] (mk_ameta Unknown [])) [(ALeaf TK_Symbol [102] (mk_ameta (Known (mkspan (LineCol 1 13) (LineCol 1 14))) []))] (mk_ameta (Known (mkspan (LineCol 1 1) (LineCol 1 14))) [])).
Proof. vm_compute. reflexivity. Qed.

(** tests/test_parse_cst.rs test_span *)
Example rust_038_test_span : (rmap (fun p => strip (fst p)) (parse_cst default_opts true NotScript [59;59;32;59;59])) = Ok (Op KInfix IOP_Times [(Op KBinary BOP_Span [(Tok (mktok TK_Fake_ImplicitOne [] [] (mkspan (LineCol 1 1) (LineCol 1 1)))); (Tok (mktok TK_SemiSemi [] [59;59] (mkspan (LineCol 1 1) (LineCol 1 3)))); (Tok (mktok TK_Whitespace [] [32] (mkspan (LineCol 1 3) (LineCol 1 4)))); (Tok (mktok TK_Fake_ImplicitAll [] [] (mkspan (LineCol 1 4) (LineCol 1 4))))]); (Tok (mktok TK_Fake_ImplicitTimes [] [] (mkspan (LineCol 1 4) (LineCol 1 4)))); (Op KBinary BOP_Span [(Tok (mktok TK_Fake_ImplicitOne [] [] (mkspan (LineCol 1 4) (LineCol 1 4)))); (Tok (mktok TK_SemiSemi [] [59;59] (mkspan (LineCol 1 4) (LineCol 1 6)))); (Tok (mktok TK_Fake_ImplicitAll [] [] (mkspan (LineCol 1 6) (LineCol 1 6))))])]).
Proof. vm_compute. reflexivity. Qed.

(** tests/test_parse_cst.rs test_span *)
Example rust_039_test_span : (rmap (fun p => strip (fst p)) (parse_cst default_opts true NotScript [59;59;32;59;59])) = Ok (Op KInfix IOP_Times [(Op KBinary BOP_Span [(Tok (mktok TK_Fake_ImplicitOne [] [] (mkspan (LineCol 1 1) (LineCol 1 1)))); (Tok (mktok TK_SemiSemi [] [59;59] (mkspan (LineCol 1 1) (LineCol 1 3)))); (Tok (mktok TK_Whitespace [] [32] (mkspan (LineCol 1 3) (LineCol 1 4)))); (Tok (mktok TK_Fake_ImplicitAll [] [] (mkspan (LineCol 1 4) (LineCol 1 4))))]); (Tok (mktok TK_Fake_ImplicitTimes [] [] (mkspan (LineCol 1 4) (LineCol 1 4)))); (Op KBinary BOP_Span [(Tok (mktok TK_Fake_ImplicitOne [] [] (mkspan (LineCol 1 4) (LineCol 1 4)))); (Tok (mktok TK_SemiSemi [] [59;59] (mkspan (LineCol 1 4) (LineCol 1 6)))); (Tok (mktok TK_Fake_ImplicitAll [] [] (mkspan (LineCol 1 6) (LineCol 1 6))))])]).
Proof. vm_compute. reflexivity. Qed.

(** tests/test_parse_cst.rs test_span *)
Example rust_040_test_span : (rmap (fun p => strip (fst p)) (parse_cst default_opts true NotScript [59;59;59;59])) = Ok (Op KInfix IOP_Times [(Op KBinary BOP_Span [(Tok (mktok TK_Fake_ImplicitOne [] [] (mkspan (LineCol 1 1) (LineCol 1 1)))); (Tok (mktok TK_SemiSemi [] [59;59] (mkspan (LineCol 1 1) (LineCol 1 3)))); (Tok (mktok TK_Fake_ImplicitAll [] [] (mkspan (LineCol 1 3) (LineCol 1 3))))]); (Tok (mktok TK_Fake_ImplicitTimes [] [] (mkspan (LineCol 1 3) (LineCol 1 3)))); (Op KBinary BOP_Span [(Tok (mktok TK_Fake_ImplicitOne [] [] (mkspan (LineCol 1 3) (LineCol 1 3)))); (Tok (mktok TK_SemiSemi [] [59;59] (mkspan (LineCol 1 3) (LineCol 1 5)))); (Tok (mktok TK_Fake_ImplicitAll [] [] (mkspan (LineCol 1 5) (LineCol 1 5))))])]).
Proof. vm_compute. reflexivity. Qed.

(** tests/test_parse_cst.rs test_span *)
Example rust_041_test_span : (rmap (fun p => strip (fst p)) (parse_cst default_opts true NotScript [97;59;59])) = Ok (Op KBinary BOP_Span [(Tok (mktok TK_Symbol [] [97] (mkspan (LineCol 1 1) (LineCol 1 2)))); (Tok (mktok TK_SemiSemi [] [59;59] (mkspan (LineCol 1 2) (LineCol 1 4)))); (Tok (mktok TK_Fake_ImplicitAll [] [] (mkspan (LineCol 1 4) (LineCol 1 4))))]).
Proof. vm_compute. reflexivity. Qed.

(** tests/test_parse_cst.rs test_span *)
Example rust_042_test_span : (rmap (fun p => strip (fst p)) (parse_cst default_opts true NotScript [97;59;59;98])) = Ok (Op KBinary BOP_Span [(Tok (mktok TK_Symbol [] [97] (mkspan (LineCol 1 1) (LineCol 1 2)))); (Tok (mktok TK_SemiSemi [] [59;59] (mkspan (LineCol 1 2) (LineCol 1 4)))); (Tok (mktok TK_Symbol [] [98] (mkspan (LineCol 1 4) (LineCol 1 5))))]).
Proof. vm_compute. reflexivity. Qed.

(** tests/test_parse_cst.rs test_span *)
Example rust_043_test_span : (rmap (fun p => strip (fst p)) (parse_cst default_opts true NotScript [97;59;59;59;59])) = Ok (Op KInfix IOP_Times [(Op KBinary BOP_Span [(Tok (mktok TK_Symbol [] [97] (mkspan (LineCol 1 1) (LineCol 1 2)))); (Tok (mktok TK_SemiSemi [] [59;59] (mkspan (LineCol 1 2) (LineCol 1 4)))); (Tok (mktok TK_Fake_ImplicitAll [] [] (mkspan (LineCol 1 4) (LineCol 1 4))))]); (Tok (mktok TK_Fake_ImplicitTimes [] [] (mkspan (LineCol 1 4) (LineCol 1 4)))); (Op KBinary BOP_Span [(Tok (mktok TK_Fake_ImplicitOne [] [] (mkspan (LineCol 1 4) (LineCol 1 4)))); (Tok (mktok TK_SemiSemi [] [59;59] (mkspan (LineCol 1 4) (LineCol 1 6)))); (Tok (mktok TK_Fake_ImplicitAll [] [] (mkspan (LineCol 1 6) (LineCol 1 6))))])]).
Proof. vm_compute. reflexivity. Qed.

(** tests/test_parse_cst.rs test_span *)
Example rust_044_test_span : (rmap (fun p => strip (fst p)) (parse_cst default_opts true NotScript [59;59;97;59;59])) = Ok (Op KInfix IOP_Times [(Op KBinary BOP_Span [(Tok (mktok TK_Fake_ImplicitOne [] [] (mkspan (LineCol 1 1) (LineCol 1 1)))); (Tok (mktok TK_SemiSemi [] [59;59] (mkspan (LineCol 1 1) (LineCol 1 3)))); (Tok (mktok TK_Symbol [] [97] (mkspan (LineCol 1 3) (LineCol 1 4))))]); (Tok (mktok TK_Fake_ImplicitTimes [] [] (mkspan (LineCol 1 4) (LineCol 1 4)))); (Op KBinary BOP_Span [(Tok (mktok TK_Fake_ImplicitOne [] [] (mkspan (LineCol 1 4) (LineCol 1 4)))); (Tok (mktok TK_SemiSemi [] [59;59] (mkspan (LineCol 1 4) (LineCol 1 6)))); (Tok (mktok TK_Fake_ImplicitAll [] [] (mkspan (LineCol 1 6) (LineCol 1 6))))])]).
Proof. vm_compute. reflexivity. Qed.

(** tests/test_parse_cst.rs test_span *)
Example rust_045_test_span : (rmap (fun p => strip (fst p)) (parse_cst default_opts true NotScript [59;59;59;59;97])) = Ok (Op KTernary TOP_Span [(Tok (mktok TK_Fake_ImplicitOne [] [] (mkspan (LineCol 1 1) (LineCol 1 1)))); (Tok (mktok TK_SemiSemi [] [59;59] (mkspan (LineCol 1 1) (LineCol 1 3)))); (Tok (mktok TK_Fake_ImplicitAll [] [] (mkspan (LineCol 1 3) (LineCol 1 3)))); (Tok (mktok TK_SemiSemi [] [59;59] (mkspan (LineCol 1 3) (LineCol 1 5)))); (Tok (mktok TK_Symbol [] [97] (mkspan (LineCol 1 5) (LineCol 1 6))))]).
Proof. vm_compute. reflexivity. Qed.

(** tests/test_parse_cst.rs test_span *)
Example rust_046_test_span : (rmap (fun p => strip (fst p)) (parse_cst default_opts true NotScript [59;59;97;59;59;98])) = Ok (Op KTernary TOP_Span [(Tok (mktok TK_Fake_ImplicitOne [] [] (mkspan (LineCol 1 1) (LineCol 1 1)))); (Tok (mktok TK_SemiSemi [] [59;59] (mkspan (LineCol 1 1) (LineCol 1 3)))); (Tok (mktok TK_Symbol [] [97] (mkspan (LineCol 1 3) (LineCol 1 4)))); (Tok (mktok TK_SemiSemi [] [59;59] (mkspan (LineCol 1 4) (LineCol 1 6)))); (Tok (mktok TK_Symbol [] [98] (mkspan (LineCol 1 6) (LineCol 1 7))))]).
Proof. vm_compute. reflexivity. Qed.

(** tests/test_parse_cst.rs test_span *)
Example rust_047_test_span : (rmap (fun p => strip (fst p)) (parse_cst default_opts true NotScript [97;59;59;59;59;98])) = Ok (Op KTernary TOP_Span [(Tok (mktok TK_Symbol [] [97] (mkspan (LineCol 1 1) (LineCol 1 2)))); (Tok (mktok TK_SemiSemi [] [59;59] (mkspan (LineCol 1 2) (LineCol 1 4)))); (Tok (mktok TK_Fake_ImplicitAll [] [] (mkspan (LineCol 1 4) (LineCol 1 4)))); (Tok (mktok TK_SemiSemi [] [59;59] (mkspan (LineCol 1 4) (LineCol 1 6)))); (Tok (mktok TK_Symbol [] [98] (mkspan (LineCol 1 6) (LineCol 1 7))))]).
Proof. vm_compute. reflexivity. Qed.

(** tests/test_parse_cst.rs test_span *)
Example rust_048_test_span : (rmap (fun p => strip (fst p)) (parse_cst default_opts true NotScript [97;59;59;98;59;59;99])) = Ok (Op KTernary TOP_Span [(Tok (mktok TK_Symbol [] [97] (mkspan (LineCol 1 1) (LineCol 1 2)))); (Tok (mktok TK_SemiSemi [] [59;59] (mkspan (LineCol 1 2) (LineCol 1 4)))); (Tok (mktok TK_Symbol [] [98] (mkspan (LineCol 1 4) (LineCol 1 5)))); (Tok (mktok TK_SemiSemi [] [59;59] (mkspan (LineCol 1 5) (LineCol 1 7)))); (Tok (mktok TK_Symbol [] [99] (mkspan (LineCol 1 7) (LineCol 1 8))))]).
Proof. vm_compute. reflexivity. Qed.

(** tests/test_parse_cst.rs test_span *)
Example rust_049_test_span : (rmap (fun p => strip (fst p)) (parse_cst default_opts true NotScript [59;59;59;59;59;59])) = Ok (Op KInfix IOP_Times [(Op KBinary BOP_Span [(Tok (mktok TK_Fake_ImplicitOne [] [] (mkspan (LineCol 1 1) (LineCol 1 1)))); (Tok (mktok TK_SemiSemi [] [59;59] (mkspan (LineCol 1 1) (LineCol 1 3)))); (Tok (mktok TK_Fake_ImplicitAll [] [] (mkspan (LineCol 1 3) (LineCol 1 3))))]); (Tok (mktok TK_Fake_ImplicitTimes [] [] (mkspan (LineCol 1 3) (LineCol 1 3)))); (Op KBinary BOP_Span [(Tok (mktok TK_Fake_ImplicitOne [] [] (mkspan (LineCol 1 3) (LineCol 1 3)))); (Tok (mktok TK_SemiSemi [] [59;59] (mkspan (LineCol 1 3) (LineCol 1 5)))); (Tok (mktok TK_Fake_ImplicitAll [] [] (mkspan (LineCol 1 5) (LineCol 1 5))))]); (Tok (mktok TK_Fake_ImplicitTimes [] [] (mkspan (LineCol 1 5) (LineCol 1 5)))); (Op KBinary BOP_Span [(Tok (mktok TK_Fake_ImplicitOne [] [] (mkspan (LineCol 1 5) (LineCol 1 5)))); (Tok (mktok TK_SemiSemi [] [59;59] (mkspan (LineCol 1 5) (LineCol 1 7)))); (Tok (mktok TK_Fake_ImplicitAll [] [] (mkspan (LineCol 1 7) (LineCol 1 7))))])]).
Proof. vm_compute. reflexivity. Qed.

(** tests/test_parse_cst.rs test_span *)
Example rust_050_test_span : (rmap (fun p => strip (fst p)) (parse_cst default_opts true NotScript [59;59;98;59;59;99;59;59])) = Ok (Op KInfix IOP_Times [(Op KTernary TOP_Span [(Tok (mktok TK_Fake_ImplicitOne [] [] (mkspan (LineCol 1 1) (LineCol 1 1)))); (Tok (mktok TK_SemiSemi [] [59;59] (mkspan (LineCol 1 1) (LineCol 1 3)))); (Tok (mktok TK_Symbol [] [98] (mkspan (LineCol 1 3) (LineCol 1 4)))); (Tok (mktok TK_SemiSemi [] [59;59] (mkspan (LineCol 1 4) (LineCol 1 6)))); (Tok (mktok TK_Symbol [] [99] (mkspan (LineCol 1 6) (LineCol 1 7))))]); (Tok (mktok TK_Fake_ImplicitTimes [] [] (mkspan (LineCol 1 7) (LineCol 1 7)))); (Op KBinary BOP_Span [(Tok (mktok TK_Fake_ImplicitOne [] [] (mkspan (LineCol 1 7) (LineCol 1 7)))); (Tok (mktok TK_SemiSemi [] [59;59] (mkspan (LineCol 1 7) (LineCol 1 9)))); (Tok (mktok TK_Fake_ImplicitAll [] [] (mkspan (LineCol 1 9) (LineCol 1 9))))])]).
Proof. vm_compute. reflexivity. Qed.

(** tests/test_parse_cst.rs test_span *)
Example rust_051_test_span : (rmap (fun p => strip (fst p)) (parse_cst default_opts true NotScript [97;59;59;98;59;59;99;59;59;100])) = Ok (Op KInfix IOP_Times [(Op KTernary TOP_Span [(Tok (mktok TK_Symbol [] [97] (mkspan (LineCol 1 1) (LineCol 1 2)))); (Tok (mktok TK_SemiSemi [] [59;59] (mkspan (LineCol 1 2) (LineCol 1 4)))); (Tok (mktok TK_Symbol [] [98] (mkspan (LineCol 1 4) (LineCol 1 5)))); (Tok (mktok TK_SemiSemi [] [59;59] (mkspan (LineCol 1 5) (LineCol 1 7)))); (Tok (mktok TK_Symbol [] [99] (mkspan (LineCol 1 7) (LineCol 1 8))))]); (Tok (mktok TK_Fake_ImplicitTimes [] [] (mkspan (LineCol 1 8) (LineCol 1 8)))); (Op KBinary BOP_Span [(Tok (mktok TK_Fake_ImplicitOne [] [] (mkspan (LineCol 1 8) (LineCol 1 8)))); (Tok (mktok TK_SemiSemi [] [59;59] (mkspan (LineCol 1 8) (LineCol 1 10)))); (Tok (mktok TK_Symbol [] [100] (mkspan (LineCol 1 10) (LineCol 1 11))))])]).
Proof. vm_compute. reflexivity. Qed.

(** tests/test_parse_cst.rs test_span *)
Example rust_052_test_span : (rmap (fun p => strip (fst p)) (parse_cst default_opts true NotScript [97;59;59;59;59;59;59])) = Ok (Op KInfix IOP_Times [(Op KBinary BOP_Span [(Tok (mktok TK_Symbol [] [97] (mkspan (LineCol 1 1) (LineCol 1 2)))); (Tok (mktok TK_SemiSemi [] [59;59] (mkspan (LineCol 1 2) (LineCol 1 4)))); (Tok (mktok TK_Fake_ImplicitAll [] [] (mkspan (LineCol 1 4) (LineCol 1 4))))]); (Tok (mktok TK_Fake_ImplicitTimes [] [] (mkspan (LineCol 1 4) (LineCol 1 4)))); (Op KBinary BOP_Span [(Tok (mktok TK_Fake_ImplicitOne [] [] (mkspan (LineCol 1 4) (LineCol 1 4)))); (Tok (mktok TK_SemiSemi [] [59;59] (mkspan (LineCol 1 4) (LineCol 1 6)))); (Tok (mktok TK_Fake_ImplicitAll [] [] (mkspan (LineCol 1 6) (LineCol 1 6))))]); (Tok (mktok TK_Fake_ImplicitTimes [] [] (mkspan (LineCol 1 6) (LineCol 1 6)))); (Op KBinary BOP_Span [(Tok (mktok TK_Fake_ImplicitOne [] [] (mkspan (LineCol 1 6) (LineCol 1 6)))); (Tok (mktok TK_SemiSemi [] [59;59] (mkspan (LineCol 1 6) (LineCol 1 8)))); (Tok (mktok TK_Fake_ImplicitAll [] [] (mkspan (LineCol 1 8) (LineCol 1 8))))])]).
Proof. vm_compute. reflexivity. Qed.

(** tests/test_parse_cst.rs test_span *)
Example rust_053_test_span : (rmap (fun p => strip (fst p)) (parse_cst default_opts true NotScript [59;59;97;59;59;59;59])) = Ok (Op KInfix IOP_Times [(Op KBinary BOP_Span [(Tok (mktok TK_Fake_ImplicitOne [] [] (mkspan (LineCol 1 1) (LineCol 1 1)))); (Tok (mktok TK_SemiSemi [] [59;59] (mkspan (LineCol 1 1) (LineCol 1 3)))); (Tok (mktok TK_Symbol [] [97] (mkspan (LineCol 1 3) (LineCol 1 4))))]); (Tok (mktok TK_Fake_ImplicitTimes [] [] (mkspan (LineCol 1 4) (LineCol 1 4)))); (Op KBinary BOP_Span [(Tok (mktok TK_Fake_ImplicitOne [] [] (mkspan (LineCol 1 4) (LineCol 1 4)))); (Tok (mktok TK_SemiSemi [] [59;59] (mkspan (LineCol 1 4) (LineCol 1 6)))); (Tok (mktok TK_Fake_ImplicitAll [] [] (mkspan (LineCol 1 6) (LineCol 1 6))))]); (Tok (mktok TK_Fake_ImplicitTimes [] [] (mkspan (LineCol 1 6) (LineCol 1 6)))); (Op KBinary BOP_Span [(Tok (mktok TK_Fake_ImplicitOne [] [] (mkspan (LineCol 1 6) (LineCol 1 6)))); (Tok (mktok TK_SemiSemi [] [59;59] (mkspan (LineCol 1 6) (LineCol 1 8)))); (Tok (mktok TK_Fake_ImplicitAll [] [] (mkspan (LineCol 1 8) (LineCol 1 8))))])]).
Proof. vm_compute. reflexivity. Qed.

(** tests/test_parse_cst.rs test_span *)
Example rust_054_test_span : (rmap (fun p => strip (fst p)) (parse_cst default_opts true NotScript [59;59;59;59;97;59;59])) = Ok (Op KInfix IOP_Times [(Op KTernary TOP_Span [(Tok (mktok TK_Fake_ImplicitOne [] [] (mkspan (LineCol 1 1) (LineCol 1 1)))); (Tok (mktok TK_SemiSemi [] [59;59] (mkspan (LineCol 1 1) (LineCol 1 3)))); (Tok (mktok TK_Fake_ImplicitAll [] [] (mkspan (LineCol 1 3) (LineCol 1 3)))); (Tok (mktok TK_SemiSemi [] [59;59] (mkspan (LineCol 1 3) (LineCol 1 5)))); (Tok (mktok TK_Symbol [] [97] (mkspan (LineCol 1 5) (LineCol 1 6))))]); (Tok (mktok TK_Fake_ImplicitTimes [] [] (mkspan (LineCol 1 6) (LineCol 1 6)))); (Op KBinary BOP_Span [(Tok (mktok TK_Fake_ImplicitOne [] [] (mkspan (LineCol 1 6) (LineCol 1 6)))); (Tok (mktok TK_SemiSemi [] [59;59] (mkspan (LineCol 1 6) (LineCol 1 8)))); (Tok (mktok TK_Fake_ImplicitAll [] [] (mkspan (LineCol 1 8) (LineCol 1 8))))])]).
Proof. vm_compute. reflexivity. Qed.

(** tests/test_parse_cst.rs test_span *)
Example rust_055_test_span : (rmap (fun p => strip (fst p)) (parse_cst default_opts true NotScript [59;59;59;59;59;59;97])) = Ok (Op KInfix IOP_Times [(Op KBinary BOP_Span [(Tok (mktok TK_Fake_ImplicitOne [] [] (mkspan (LineCol 1 1) (LineCol 1 1)))); (Tok (mktok TK_SemiSemi [] [59;59] (mkspan (LineCol 1 1) (LineCol 1 3)))); (Tok (mktok TK_Fake_ImplicitAll [] [] (mkspan (LineCol 1 3) (LineCol 1 3))))]); (Tok (mktok TK_Fake_ImplicitTimes [] [] (mkspan (LineCol 1 3) (LineCol 1 3)))); (Op KTernary TOP_Span [(Tok (mktok TK_Fake_ImplicitOne [] [] (mkspan (LineCol 1 3) (LineCol 1 3)))); (Tok (mktok TK_SemiSemi [] [59;59] (mkspan (LineCol 1 3) (LineCol 1 5)))); (Tok (mktok TK_Fake_ImplicitAll [] [] (mkspan (LineCol 1 5) (LineCol 1 5)))); (Tok (mktok TK_SemiSemi [] [59;59] (mkspan (LineCol 1 5) (LineCol 1 7)))); (Tok (mktok TK_Symbol [] [97] (mkspan (LineCol 1 7) (LineCol 1 8))))])]).
Proof. vm_compute. reflexivity. Qed.

(** tests/test_parse_cst.rs test_span *)
Example rust_056_test_span : (rmap (fun p => strip (fst p)) (parse_cst default_opts true NotScript [59;59;59;59;59;59;59;59])) = Ok (Op KInfix IOP_Times [(Op KBinary BOP_Span [(Tok (mktok TK_Fake_ImplicitOne [] [] (mkspan (LineCol 1 1) (LineCol 1 1)))); (Tok (mktok TK_SemiSemi [] [59;59] (mkspan (LineCol 1 1) (LineCol 1 3)))); (Tok (mktok TK_Fake_ImplicitAll [] [] (mkspan (LineCol 1 3) (LineCol 1 3))))]); (Tok (mktok TK_Fake_ImplicitTimes [] [] (mkspan (LineCol 1 3) (LineCol 1 3)))); (Op KBinary BOP_Span [(Tok (mktok TK_Fake_ImplicitOne [] [] (mkspan (LineCol 1 3) (LineCol 1 3)))); (Tok (mktok TK_SemiSemi [] [59;59] (mkspan (LineCol 1 3) (LineCol 1 5)))); (Tok (mktok TK_Fake_ImplicitAll [] [] (mkspan (LineCol 1 5) (LineCol 1 5))))]); (Tok (mktok TK_Fake_ImplicitTimes [] [] (mkspan (LineCol 1 5) (LineCol 1 5)))); (Op KBinary BOP_Span [(Tok (mktok TK_Fake_ImplicitOne [] [] (mkspan (LineCol 1 5) (LineCol 1 5)))); (Tok (mktok TK_SemiSemi [] [59;59] (mkspan (LineCol 1 5) (LineCol 1 7)))); (Tok (mktok TK_Fake_ImplicitAll [] [] (mkspan (LineCol 1 7) (LineCol 1 7))))]); (Tok (mktok TK_Fake_ImplicitTimes [] [] (mkspan (LineCol 1 7) (LineCol 1 7)))); (Op KBinary BOP_Span [(Tok (mktok TK_Fake_ImplicitOne [] [] (mkspan (LineCol 1 7) (LineCol 1 7)))); (Tok (mktok TK_SemiSemi [] [59;59] (mkspan (LineCol 1 7) (LineCol 1 9)))); (Tok (mktok TK_Fake_ImplicitAll [] [] (mkspan (LineCol 1 9) (LineCol 1 9))))])]).
Proof. vm_compute. reflexivity. Qed.

(** tests/test_parse_cst.rs test_span *)
Example rust_057_test_span : (rmap (fun p => strip (fst p)) (parse_cst default_opts true NotScript [97;59;59;59;59;59;59;59;59])) = Ok (Op KInfix IOP_Times [(Op KBinary BOP_Span [(Tok (mktok TK_Symbol [] [97] (mkspan (LineCol 1 1) (LineCol 1 2)))); (Tok (mktok TK_SemiSemi [] [59;59] (mkspan (LineCol 1 2) (LineCol 1 4)))); (Tok (mktok TK_Fake_ImplicitAll [] [] (mkspan (LineCol 1 4) (LineCol 1 4))))]); (Tok (mktok TK_Fake_ImplicitTimes [] [] (mkspan (LineCol 1 4) (LineCol 1 4)))); (Op KBinary BOP_Span [(Tok (mktok TK_Fake_ImplicitOne [] [] (mkspan (LineCol 1 4) (LineCol 1 4)))); (Tok (mktok TK_SemiSemi [] [59;59] (mkspan (LineCol 1 4) (LineCol 1 6)))); (Tok (mktok TK_Fake_ImplicitAll [] [] (mkspan (LineCol 1 6) (LineCol 1 6))))]); (Tok (mktok TK_Fake_ImplicitTimes [] [] (mkspan (LineCol 1 6) (LineCol 1 6)))); (Op KBinary BOP_Span [(Tok (mktok TK_Fake_ImplicitOne [] [] (mkspan (LineCol 1 6) (LineCol 1 6)))); (Tok (mktok TK_SemiSemi [] [59;59] (mkspan (LineCol 1 6) (LineCol 1 8)))); (Tok (mktok TK_Fake_ImplicitAll [] [] (mkspan (LineCol 1 8) (LineCol 1 8))))]); (Tok (mktok TK_Fake_ImplicitTimes [] [] (mkspan (LineCol 1 8) (LineCol 1 8)))); (Op KBinary BOP_Span [(Tok (mktok TK_Fake_ImplicitOne [] [] (mkspan (LineCol 1 8) (LineCol 1 8)))); (Tok (mktok TK_SemiSemi [] [59;59] (mkspan (LineCol 1 8) (LineCol 1 10)))); (Tok (mktok TK_Fake_ImplicitAll [] [] (mkspan (LineCol 1 10) (LineCol 1 10))))])]).
Proof. vm_compute. reflexivity. Qed.

(** tests/test_parse_cst.rs test_span *)
Example rust_058_test_span : (rmap (fun p => strip (fst p)) (parse_cst default_opts true NotScript [59;59;97;59;59;59;59;59;59])) = Ok (Op KInfix IOP_Times [(Op KBinary BOP_Span [(Tok (mktok TK_Fake_ImplicitOne [] [] (mkspan (LineCol 1 1) (LineCol 1 1)))); (Tok (mktok TK_SemiSemi [] [59;59] (mkspan (LineCol 1 1) (LineCol 1 3)))); (Tok (mktok TK_Symbol [] [97] (mkspan (LineCol 1 3) (LineCol 1 4))))]); (Tok (mktok TK_Fake_ImplicitTimes [] [] (mkspan (LineCol 1 4) (LineCol 1 4)))); (Op KBinary BOP_Span [(Tok (mktok TK_Fake_ImplicitOne [] [] (mkspan (LineCol 1 4) (LineCol 1 4)))); (Tok (mktok TK_SemiSemi [] [59;59] (mkspan (LineCol 1 4) (LineCol 1 6)))); (Tok (mktok TK_Fake_ImplicitAll [] [] (mkspan (LineCol 1 6) (LineCol 1 6))))]); (Tok (mktok TK_Fake_ImplicitTimes [] [] (mkspan (LineCol 1 6) (LineCol 1 6)))); (Op KBinary BOP_Span [(Tok (mktok TK_Fake_ImplicitOne [] [] (mkspan (LineCol 1 6) (LineCol 1 6)))); (Tok (mktok TK_SemiSemi [] [59;59] (mkspan (LineCol 1 6) (LineCol 1 8)))); (Tok (mktok TK_Fake_ImplicitAll [] [] (mkspan (LineCol 1 8) (LineCol 1 8))))]); (Tok (mktok TK_Fake_ImplicitTimes [] [] (mkspan (LineCol 1 8) (LineCol 1 8)))); (Op KBinary BOP_Span [(Tok (mktok TK_Fake_ImplicitOne [] [] (mkspan (LineCol 1 8) (LineCol 1 8)))); (Tok (mktok TK_SemiSemi [] [59;59] (mkspan (LineCol 1 8) (LineCol 1 10)))); (Tok (mktok TK_Fake_ImplicitAll [] [] (mkspan (LineCol 1 10) (LineCol 1 10))))])]).
Proof. vm_compute. reflexivity. Qed.

(** tests/test_parse_cst.rs test_span *)
Example rust_059_test_span : (rmap (fun p => strip (fst p)) (parse_cst default_opts true NotScript [59;59;59;59;97;59;59;59;59])) = Ok (Op KInfix IOP_Times [(Op KTernary TOP_Span [(Tok (mktok TK_Fake_ImplicitOne [] [] (mkspan (LineCol 1 1) (LineCol 1 1)))); (Tok (mktok TK_SemiSemi [] [59;59] (mkspan (LineCol 1 1) (LineCol 1 3)))); (Tok (mktok TK_Fake_ImplicitAll [] [] (mkspan (LineCol 1 3) (LineCol 1 3)))); (Tok (mktok TK_SemiSemi [] [59;59] (mkspan (LineCol 1 3) (LineCol 1 5)))); (Tok (mktok TK_Symbol [] [97] (mkspan (LineCol 1 5) (LineCol 1 6))))]); (Tok (mktok TK_Fake_ImplicitTimes [] [] (mkspan (LineCol 1 6) (LineCol 1 6)))); (Op KBinary BOP_Span [(Tok (mktok TK_Fake_ImplicitOne [] [] (mkspan (LineCol 1 6) (LineCol 1 6)))); (Tok (mktok TK_SemiSemi [] [59;59] (mkspan (LineCol 1 6) (LineCol 1 8)))); (Tok (mktok TK_Fake_ImplicitAll [] [] (mkspan (LineCol 1 8) (LineCol 1 8))))]); (Tok (mktok TK_Fake_ImplicitTimes [] [] (mkspan (LineCol 1 8) (LineCol 1 8)))); (Op KBinary BOP_Span [(Tok (mktok TK_Fake_ImplicitOne [] [] (mkspan (LineCol 1 8) (LineCol 1 8)))); (Tok (mktok TK_SemiSemi [] [59;59] (mkspan (LineCol 1 8) (LineCol 1 10)))); (Tok (mktok TK_Fake_ImplicitAll [] [] (mkspan (LineCol 1 10) (LineCol 1 10))))])]).
Proof. vm_compute. reflexivity. Qed.

(** tests/test_parse_cst.rs test_span *)
Example rust_060_test_span : (rmap (fun p => strip (fst p)) (parse_cst default_opts true NotScript [59;59;59;59;59;59;97;59;59])) = Ok (Op KInfix IOP_Times [(Op KBinary BOP_Span [(Tok (mktok TK_Fake_ImplicitOne [] [] (mkspan (LineCol 1 1) (LineCol 1 1)))); (Tok (mktok TK_SemiSemi [] [59;59] (mkspan (LineCol 1 1) (LineCol 1 3)))); (Tok (mktok TK_Fake_ImplicitAll [] [] (mkspan (LineCol 1 3) (LineCol 1 3))))]); (Tok (mktok TK_Fake_ImplicitTimes [] [] (mkspan (LineCol 1 3) (LineCol 1 3)))); (Op KTernary TOP_Span [(Tok (mktok TK_Fake_ImplicitOne [] [] (mkspan (LineCol 1 3) (LineCol 1 3)))); (Tok (mktok TK_SemiSemi [] [59;59] (mkspan (LineCol 1 3) (LineCol 1 5)))); (Tok (mktok TK_Fake_ImplicitAll [] [] (mkspan (LineCol 1 5) (LineCol 1 5)))); (Tok (mktok TK_SemiSemi [] [59;59] (mkspan (LineCol 1 5) (LineCol 1 7)))); (Tok (mktok TK_Symbol [] [97] (mkspan (LineCol 1 7) (LineCol 1 8))))]); (Tok (mktok TK_Fake_ImplicitTimes [] [] (mkspan (LineCol 1 8) (LineCol 1 8)))); (Op KBinary BOP_Span [(Tok (mktok TK_Fake_ImplicitOne [] [] (mkspan (LineCol 1 8) (LineCol 1 8)))); (Tok (mktok TK_SemiSemi [] [59;59] (mkspan (LineCol 1 8) (LineCol 1 10)))); (Tok (mktok TK_Fake_ImplicitAll [] [] (mkspan (LineCol 1 10) (LineCol 1 10))))])]).
Proof. vm_compute. reflexivity. Qed.

(** tests/test_parse_cst.rs test_span *)
Example rust_061_test_span : (rmap (fun p => strip (fst p)) (parse_cst default_opts true NotScript [59;59;59;59;59;59;59;59;97])) = Ok (Op KInfix IOP_Times [(Op KBinary BOP_Span [(Tok (mktok TK_Fake_ImplicitOne [] [] (mkspan (LineCol 1 1) (LineCol 1 1)))); (Tok (mktok TK_SemiSemi [] [59;59] (mkspan (LineCol 1 1) (LineCol 1 3)))); (Tok (mktok TK_Fake_ImplicitAll [] [] (mkspan (LineCol 1 3) (LineCol 1 3))))]); (Tok (mktok TK_Fake_ImplicitTimes [] [] (mkspan (LineCol 1 3) (LineCol 1 3)))); (Op KBinary BOP_Span [(Tok (mktok TK_Fake_ImplicitOne [] [] (mkspan (LineCol 1 3) (LineCol 1 3)))); (Tok (mktok TK_SemiSemi [] [59;59] (mkspan (LineCol 1 3) (LineCol 1 5)))); (Tok (mktok TK_Fake_ImplicitAll [] [] (mkspan (LineCol 1 5) (LineCol 1 5))))]); (Tok (mktok TK_Fake_ImplicitTimes [] [] (mkspan (LineCol 1 5) (LineCol 1 5)))); (Op KTernary TOP_Span [(Tok (mktok TK_Fake_ImplicitOne [] [] (mkspan (LineCol 1 5) (LineCol 1 5)))); (Tok (mktok TK_SemiSemi [] [59;59] (mkspan (LineCol 1 5) (LineCol 1 7)))); (Tok (mktok TK_Fake_ImplicitAll [] [] (mkspan (LineCol 1 7) (LineCol 1 7)))); (Tok (mktok TK_SemiSemi [] [59;59] (mkspan (LineCol 1 7) (LineCol 1 9)))); (Tok (mktok TK_Symbol [] [97] (mkspan (LineCol 1 9) (LineCol 1 10))))])]).
Proof. vm_compute. reflexivity. Qed.

(** tests/test_parse_cst.rs test_span *)
Example rust_062_test_span : (rmap (fun p => strip (fst p)) (parse_cst default_opts true NotScript [97;59;59;59;59;59;59;98])) = Ok (Op KInfix IOP_Times [(Op KBinary BOP_Span [(Tok (mktok TK_Symbol [] [97] (mkspan (LineCol 1 1) (LineCol 1 2)))); (Tok (mktok TK_SemiSemi [] [59;59] (mkspan (LineCol 1 2) (LineCol 1 4)))); (Tok (mktok TK_Fake_ImplicitAll [] [] (mkspan (LineCol 1 4) (LineCol 1 4))))]); (Tok (mktok TK_Fake_ImplicitTimes [] [] (mkspan (LineCol 1 4) (LineCol 1 4)))); (Op KTernary TOP_Span [(Tok (mktok TK_Fake_ImplicitOne [] [] (mkspan (LineCol 1 4) (LineCol 1 4)))); (Tok (mktok TK_SemiSemi [] [59;59] (mkspan (LineCol 1 4) (LineCol 1 6)))); (Tok (mktok TK_Fake_ImplicitAll [] [] (mkspan (LineCol 1 6) (LineCol 1 6)))); (Tok (mktok TK_SemiSemi [] [59;59] (mkspan (LineCol 1 6) (LineCol 1 8)))); (Tok (mktok TK_Symbol [] [98] (mkspan (LineCol 1 8) (LineCol 1 9))))])]).
Proof. vm_compute. reflexivity. Qed.

(** tests/test_parse_cst.rs test_span *)
Example rust_063_test_span : (rmap (fun p => strip (fst p)) (parse_cst default_opts true NotScript [59;59;97;59;59;59;59;98])) = Ok (Op KInfix IOP_Times [(Op KBinary BOP_Span [(Tok (mktok TK_Fake_ImplicitOne [] [] (mkspan (LineCol 1 1) (LineCol 1 1)))); (Tok (mktok TK_SemiSemi [] [59;59] (mkspan (LineCol 1 1) (LineCol 1 3)))); (Tok (mktok TK_Symbol [] [97] (mkspan (LineCol 1 3) (LineCol 1 4))))]); (Tok (mktok TK_Fake_ImplicitTimes [] [] (mkspan (LineCol 1 4) (LineCol 1 4)))); (Op KTernary TOP_Span [(Tok (mktok TK_Fake_ImplicitOne [] [] (mkspan (LineCol 1 4) (LineCol 1 4)))); (Tok (mktok TK_SemiSemi [] [59;59] (mkspan (LineCol 1 4) (LineCol 1 6)))); (Tok (mktok TK_Fake_ImplicitAll [] [] (mkspan (LineCol 1 6) (LineCol 1 6)))); (Tok (mktok TK_SemiSemi [] [59;59] (mkspan (LineCol 1 6) (LineCol 1 8)))); (Tok (mktok TK_Symbol [] [98] (mkspan (LineCol 1 8) (LineCol 1 9))))])]).
Proof. vm_compute. reflexivity. Qed.

(** tests/test_parse_cst.rs test_span *)
Example rust_064_test_span : (rmap (fun p => strip (fst p)) (parse_cst default_opts true NotScript [59;59;59;59;97;59;59;98])) = Ok (Op KInfix IOP_Times [(Op KTernary TOP_Span [(Tok (mktok TK_Fake_ImplicitOne [] [] (mkspan (LineCol 1 1) (LineCol 1 1)))); (Tok (mktok TK_SemiSemi [] [59;59] (mkspan (LineCol 1 1) (LineCol 1 3)))); (Tok (mktok TK_Fake_ImplicitAll [] [] (mkspan (LineCol 1 3) (LineCol 1 3)))); (Tok (mktok TK_SemiSemi [] [59;59] (mkspan (LineCol 1 3) (LineCol 1 5)))); (Tok (mktok TK_Symbol [] [97] (mkspan (LineCol 1 5) (LineCol 1 6))))]); (Tok (mktok TK_Fake_ImplicitTimes [] [] (mkspan (LineCol 1 6) (LineCol 1 6)))); (Op KBinary BOP_Span [(Tok (mktok TK_Fake_ImplicitOne [] [] (mkspan (LineCol 1 6) (LineCol 1 6)))); (Tok (mktok TK_SemiSemi [] [59;59] (mkspan (LineCol 1 6) (LineCol 1 8)))); (Tok (mktok TK_Symbol [] [98] (mkspan (LineCol 1 8) (LineCol 1 9))))])]).
Proof. vm_compute. reflexivity. Qed.

(** tests/test_parse_cst.rs test_span *)
Example rust_065_test_span : (rmap (fun p => strip (fst p)) (parse_cst default_opts true NotScript [59;59;59;59;59;59;97])) = Ok (Op KInfix IOP_Times [(Op KBinary BOP_Span [(Tok (mktok TK_Fake_ImplicitOne [] [] (mkspan (LineCol 1 1) (LineCol 1 1)))); (Tok (mktok TK_SemiSemi [] [59;59] (mkspan (LineCol 1 1) (LineCol 1 3)))); (Tok (mktok TK_Fake_ImplicitAll [] [] (mkspan (LineCol 1 3) (LineCol 1 3))))]); (Tok (mktok TK_Fake_ImplicitTimes [] [] (mkspan (LineCol 1 3) (LineCol 1 3)))); (Op KTernary TOP_Span [(Tok (mktok TK_Fake_ImplicitOne [] [] (mkspan (LineCol 1 3) (LineCol 1 3)))); (Tok (mktok TK_SemiSemi [] [59;59] (mkspan (LineCol 1 3) (LineCol 1 5)))); (Tok (mktok TK_Fake_ImplicitAll [] [] (mkspan (LineCol 1 5) (LineCol 1 5)))); (Tok (mktok TK_SemiSemi [] [59;59] (mkspan (LineCol 1 5) (LineCol 1 7)))); (Tok (mktok TK_Symbol [] [97] (mkspan (LineCol 1 7) (LineCol 1 8))))])]).
Proof. vm_compute. reflexivity. Qed.

(** tests/test_parse_cst.rs test_span *)
Example rust_066_test_span : (rmap (fun p => strip (fst p)) (parse_cst default_opts true NotScript [59;59;59;59;59;59;59;59;98])) = Ok (Op KInfix IOP_Times [(Op KBinary BOP_Span [(Tok (mktok TK_Fake_ImplicitOne [] [] (mkspan (LineCol 1 1) (LineCol 1 1)))); (Tok (mktok TK_SemiSemi [] [59;59] (mkspan (LineCol 1 1) (LineCol 1 3)))); (Tok (mktok TK_Fake_ImplicitAll [] [] (mkspan (LineCol 1 3) (LineCol 1 3))))]); (Tok (mktok TK_Fake_ImplicitTimes [] [] (mkspan (LineCol 1 3) (LineCol 1 3)))); (Op KBinary BOP_Span [(Tok (mktok TK_Fake_ImplicitOne [] [] (mkspan (LineCol 1 3) (LineCol 1 3)))); (Tok (mktok TK_SemiSemi [] [59;59] (mkspan (LineCol 1 3) (LineCol 1 5)))); (Tok (mktok TK_Fake_ImplicitAll [] [] (mkspan (LineCol 1 5) (LineCol 1 5))))]); (Tok (mktok TK_Fake_ImplicitTimes [] [] (mkspan (LineCol 1 5) (LineCol 1 5)))); (Op KTernary TOP_Span [(Tok (mktok TK_Fake_ImplicitOne [] [] (mkspan (LineCol 1 5) (LineCol 1 5)))); (Tok (mktok TK_SemiSemi [] [59;59] (mkspan (LineCol 1 5) (LineCol 1 7)))); (Tok (mktok TK_Fake_ImplicitAll [] [] (mkspan (LineCol 1 7) (LineCol 1 7)))); (Tok (mktok TK_SemiSemi [] [59;59] (mkspan (LineCol 1 7) (LineCol 1 9)))); (Tok (mktok TK_Symbol [] [98] (mkspan (LineCol 1 9) (LineCol 1 10))))])]).
Proof. vm_compute. reflexivity. Qed.

(** tests/test_parse_cst.rs test_span *)
Example rust_067_test_span : (rmap (fun p => strip (fst p)) (parse_cst default_opts true NotScript [97;59;59;59;59;59;59;59;59;98])) = Ok (Op KInfix IOP_Times [(Op KBinary BOP_Span [(Tok (mktok TK_Symbol [] [97] (mkspan (LineCol 1 1) (LineCol 1 2)))); (Tok (mktok TK_SemiSemi [] [59;59] (mkspan (LineCol 1 2) (LineCol 1 4)))); (Tok (mktok TK_Fake_ImplicitAll [] [] (mkspan (LineCol 1 4) (LineCol 1 4))))]); (Tok (mktok TK_Fake_ImplicitTimes [] [] (mkspan (LineCol 1 4) (LineCol 1 4)))); (Op KBinary BOP_Span [(Tok (mktok TK_Fake_ImplicitOne [] [] (mkspan (LineCol 1 4) (LineCol 1 4)))); (Tok (mktok TK_SemiSemi [] [59;59] (mkspan (LineCol 1 4) (LineCol 1 6)))); (Tok (mktok TK_Fake_ImplicitAll [] [] (mkspan (LineCol 1 6) (LineCol 1 6))))]); (Tok (mktok TK_Fake_ImplicitTimes [] [] (mkspan (LineCol 1 6) (LineCol 1 6)))); (Op KTernary TOP_Span [(Tok (mktok TK_Fake_ImplicitOne [] [] (mkspan (LineCol 1 6) (LineCol 1 6)))); (Tok (mktok TK_SemiSemi [] [59;59] (mkspan (LineCol 1 6) (LineCol 1 8)))); (Tok (mktok TK_Fake_ImplicitAll [] [] (mkspan (LineCol 1 8) (LineCol 1 8)))); (Tok (mktok TK_SemiSemi [] [59;59] (mkspan (LineCol 1 8) (LineCol 1 10)))); (Tok (mktok TK_Symbol [] [98] (mkspan (LineCol 1 10) (LineCol 1 11))))])]).
Proof. vm_compute. reflexivity. Qed.

(** tests/test_parse_cst.rs test_span *)
Example rust_068_test_span : (rmap (fun p => strip (fst p)) (parse_cst default_opts true NotScript [59;59;97;59;59;59;59;59;59;98])) = Ok (Op KInfix IOP_Times [(Op KBinary BOP_Span [(Tok (mktok TK_Fake_ImplicitOne [] [] (mkspan (LineCol 1 1) (LineCol 1 1)))); (Tok (mktok TK_SemiSemi [] [59;59] (mkspan (LineCol 1 1) (LineCol 1 3)))); (Tok (mktok TK_Symbol [] [97] (mkspan (LineCol 1 3) (LineCol 1 4))))]); (Tok (mktok TK_Fake_ImplicitTimes [] [] (mkspan (LineCol 1 4) (LineCol 1 4)))); (Op KBinary BOP_Span [(Tok (mktok TK_Fake_ImplicitOne [] [] (mkspan (LineCol 1 4) (LineCol 1 4)))); (Tok (mktok TK_SemiSemi [] [59;59] (mkspan (LineCol 1 4) (LineCol 1 6)))); (Tok (mktok TK_Fake_ImplicitAll [] [] (mkspan (LineCol 1 6) (LineCol 1 6))))]); (Tok (mktok TK_Fake_ImplicitTimes [] [] (mkspan (LineCol 1 6) (LineCol 1 6)))); (Op KTernary TOP_Span [(Tok (mktok TK_Fake_ImplicitOne [] [] (mkspan (LineCol 1 6) (LineCol 1 6)))); (Tok (mktok TK_SemiSemi [] [59;59] (mkspan (LineCol 1 6) (LineCol 1 8)))); (Tok (mktok TK_Fake_ImplicitAll [] [] (mkspan (LineCol 1 8) (LineCol 1 8)))); (Tok (mktok TK_SemiSemi [] [59;59] (mkspan (LineCol 1 8) (LineCol 1 10)))); (Tok (mktok TK_Symbol [] [98] (mkspan (LineCol 1 10) (LineCol 1 11))))])]).
Proof. vm_compute. reflexivity. Qed.

(** tests/test_parse_cst.rs test_span *)
Example rust_069_test_span : (rmap (fun p => strip (fst p)) (parse_cst default_opts true NotScript [59;59;59;59;97;59;59;59;59;98])) = Ok (Op KInfix IOP_Times [(Op KTernary TOP_Span [(Tok (mktok TK_Fake_ImplicitOne [] [] (mkspan (LineCol 1 1) (LineCol 1 1)))); (Tok (mktok TK_SemiSemi [] [59;59] (mkspan (LineCol 1 1) (LineCol 1 3)))); (Tok (mktok TK_Fake_ImplicitAll [] [] (mkspan (LineCol 1 3) (LineCol 1 3)))); (Tok (mktok TK_SemiSemi [] [59;59] (mkspan (LineCol 1 3) (LineCol 1 5)))); (Tok (mktok TK_Symbol [] [97] (mkspan (LineCol 1 5) (LineCol 1 6))))]); (Tok (mktok TK_Fake_ImplicitTimes [] [] (mkspan (LineCol 1 6) (LineCol 1 6)))); (Op KTernary TOP_Span [(Tok (mktok TK_Fake_ImplicitOne [] [] (mkspan (LineCol 1 6) (LineCol 1 6)))); (Tok (mktok TK_SemiSemi [] [59;59] (mkspan (LineCol 1 6) (LineCol 1 8)))); (Tok (mktok TK_Fake_ImplicitAll [] [] (mkspan (LineCol 1 8) (LineCol 1 8)))); (Tok (mktok TK_SemiSemi [] [59;59] (mkspan (LineCol 1 8) (LineCol 1 10)))); (Tok (mktok TK_Symbol [] [98] (mkspan (LineCol 1 10) (LineCol 1 11))))])]).
Proof. vm_compute. reflexivity. Qed.

(** tests/test_parse_cst.rs test_span *)
Example rust_070_test_span : (rmap (fun p => strip (fst p)) (parse_cst default_opts true NotScript [59;59;59;59;59;59;97;59;59;98])) = Ok (Op KInfix IOP_Times [(Op KBinary BOP_Span [(Tok (mktok TK_Fake_ImplicitOne [] [] (mkspan (LineCol 1 1) (LineCol 1 1)))); (Tok (mktok TK_SemiSemi [] [59;59] (mkspan (LineCol 1 1) (LineCol 1 3)))); (Tok (mktok TK_Fake_ImplicitAll [] [] (mkspan (LineCol 1 3) (LineCol 1 3))))]); (Tok (mktok TK_Fake_ImplicitTimes [] [] (mkspan (LineCol 1 3) (LineCol 1 3)))); (Op KTernary TOP_Span [(Tok (mktok TK_Fake_ImplicitOne [] [] (mkspan (LineCol 1 3) (LineCol 1 3)))); (Tok (mktok TK_SemiSemi [] [59;59] (mkspan (LineCol 1 3) (LineCol 1 5)))); (Tok (mktok TK_Fake_ImplicitAll [] [] (mkspan (LineCol 1 5) (LineCol 1 5)))); (Tok (mktok TK_SemiSemi [] [59;59] (mkspan (LineCol 1 5) (LineCol 1 7)))); (Tok (mktok TK_Symbol [] [97] (mkspan (LineCol 1 7) (LineCol 1 8))))]); (Tok (mktok TK_Fake_ImplicitTimes [] [] (mkspan (LineCol 1 8) (LineCol 1 8)))); (Op KBinary BOP_Span [(Tok (mktok TK_Fake_ImplicitOne [] [] (mkspan (LineCol 1 8) (LineCol 1 8)))); (Tok (mktok TK_SemiSemi [] [59;59] (mkspan (LineCol 1 8) (LineCol 1 10)))); (Tok (mktok TK_Symbol [] [98] (mkspan (LineCol 1 10) (LineCol 1 11))))])]).
Proof. vm_compute. reflexivity. Qed.

(** tests/test_parse_cst.rs test_span *)
Example rust_071_test_span : (rmap (fun p => strip (fst p)) (parse_cst default_opts true NotScript [59;59;59;59;59;59;59;59;97])) = Ok (Op KInfix IOP_Times [(Op KBinary BOP_Span [(Tok (mktok TK_Fake_ImplicitOne [] [] (mkspan (LineCol 1 1) (LineCol 1 1)))); (Tok (mktok TK_SemiSemi [] [59;59] (mkspan (LineCol 1 1) (LineCol 1 3)))); (Tok (mktok TK_Fake_ImplicitAll [] [] (mkspan (LineCol 1 3) (LineCol 1 3))))]); (Tok (mktok TK_Fake_ImplicitTimes [] [] (mkspan (LineCol 1 3) (LineCol 1 3)))); (Op KBinary BOP_Span [(Tok (mktok TK_Fake_ImplicitOne [] [] (mkspan (LineCol 1 3) (LineCol 1 3)))); (Tok (mktok TK_SemiSemi [] [59;59] (mkspan (LineCol 1 3) (LineCol 1 5)))); (Tok (mktok TK_Fake_ImplicitAll [] [] (mkspan (LineCol 1 5) (LineCol 1 5))))]); (Tok (mktok TK_Fake_ImplicitTimes [] [] (mkspan (LineCol 1 5) (LineCol 1 5)))); (Op KTernary TOP_Span [(Tok (mktok TK_Fake_ImplicitOne [] [] (mkspan (LineCol 1 5) (LineCol 1 5)))); (Tok (mktok TK_SemiSemi [] [59;59] (mkspan (LineCol 1 5) (LineCol 1 7)))); (Tok (mktok TK_Fake_ImplicitAll [] [] (mkspan (LineCol 1 7) (LineCol 1 7)))); (Tok (mktok TK_SemiSemi [] [59;59] (mkspan (LineCol 1 7) (LineCol 1 9)))); (Tok (mktok TK_Symbol [] [97] (mkspan (LineCol 1 9) (LineCol 1 10))))])]).
Proof. vm_compute. reflexivity. Qed.

(** tests/test_parse_cst.rs test_span *)
Example rust_072_test_span : (rmap (fun p => strip (fst p)) (parse_cst default_opts true NotScript [59;59;59;59;59;59;59;59;98])) = Ok (Op KInfix IOP_Times [(Op KBinary BOP_Span [(Tok (mktok TK_Fake_ImplicitOne [] [] (mkspan (LineCol 1 1) (LineCol 1 1)))); (Tok (mktok TK_SemiSemi [] [59;59] (mkspan (LineCol 1 1) (LineCol 1 3)))); (Tok (mktok TK_Fake_ImplicitAll [] [] (mkspan (LineCol 1 3) (LineCol 1 3))))]); (Tok (mktok TK_Fake_ImplicitTimes [] [] (mkspan (LineCol 1 3) (LineCol 1 3)))); (Op KBinary BOP_Span [(Tok (mktok TK_Fake_ImplicitOne [] [] (mkspan (LineCol 1 3) (LineCol 1 3)))); (Tok (mktok TK_SemiSemi [] [59;59] (mkspan (LineCol 1 3) (LineCol 1 5)))); (Tok (mktok TK_Fake_ImplicitAll [] [] (mkspan (LineCol 1 5) (LineCol 1 5))))]); (Tok (mktok TK_Fake_ImplicitTimes [] [] (mkspan (LineCol 1 5) (LineCol 1 5)))); (Op KTernary TOP_Span [(Tok (mktok TK_Fake_ImplicitOne [] [] (mkspan (LineCol 1 5) (LineCol 1 5)))); (Tok (mktok TK_SemiSemi [] [59;59] (mkspan (LineCol 1 5) (LineCol 1 7)))); (Tok (mktok TK_Fake_ImplicitAll [] [] (mkspan (LineCol 1 7) (LineCol 1 7)))); (Tok (mktok TK_SemiSemi [] [59;59] (mkspan (LineCol 1 7) (LineCol 1 9)))); (Tok (mktok TK_Symbol [] [98] (mkspan (LineCol 1 9) (LineCol 1 10))))])]).
Proof. vm_compute. reflexivity. Qed.

(** tests/test_parse_cst.rs test_span *)
Example rust_073_test_span : (rmap (fun p => strip (fst p)) (parse_cst default_opts true NotScript [97;59;59;99;59;59;59;59;59;59;98])) = Ok (Op KInfix IOP_Times [(Op KBinary BOP_Span [(Tok (mktok TK_Symbol [] [97] (mkspan (LineCol 1 1) (LineCol 1 2)))); (Tok (mktok TK_SemiSemi [] [59;59] (mkspan (LineCol 1 2) (LineCol 1 4)))); (Tok (mktok TK_Symbol [] [99] (mkspan (LineCol 1 4) (LineCol 1 5))))]); (Tok (mktok TK_Fake_ImplicitTimes [] [] (mkspan (LineCol 1 5) (LineCol 1 5)))); (Op KBinary BOP_Span [(Tok (mktok TK_Fake_ImplicitOne [] [] (mkspan (LineCol 1 5) (LineCol 1 5)))); (Tok (mktok TK_SemiSemi [] [59;59] (mkspan (LineCol 1 5) (LineCol 1 7)))); (Tok (mktok TK_Fake_ImplicitAll [] [] (mkspan (LineCol 1 7) (LineCol 1 7))))]); (Tok (mktok TK_Fake_ImplicitTimes [] [] (mkspan (LineCol 1 7) (LineCol 1 7)))); (Op KTernary TOP_Span [(Tok (mktok TK_Fake_ImplicitOne [] [] (mkspan (LineCol 1 7) (LineCol 1 7)))); (Tok (mktok TK_SemiSemi [] [59;59] (mkspan (LineCol 1 7) (LineCol 1 9)))); (Tok (mktok TK_Fake_ImplicitAll [] [] (mkspan (LineCol 1 9) (LineCol 1 9)))); (Tok (mktok TK_SemiSemi [] [59;59] (mkspan (LineCol 1 9) (LineCol 1 11)))); (Tok (mktok TK_Symbol [] [98] (mkspan (LineCol 1 11) (LineCol 1 12))))])]).
Proof. vm_compute. reflexivity. Qed.

(** tests/test_parse_cst.rs test_span *)
Example rust_074_test_span : (rmap (fun p => strip (fst p)) (parse_cst default_opts true NotScript [59;59;97;59;59;99;59;59;59;59;98])) = Ok (Op KInfix IOP_Times [(Op KTernary TOP_Span [(Tok (mktok TK_Fake_ImplicitOne [] [] (mkspan (LineCol 1 1) (LineCol 1 1)))); (Tok (mktok TK_SemiSemi [] [59;59] (mkspan (LineCol 1 1) (LineCol 1 3)))); (Tok (mktok TK_Symbol [] [97] (mkspan (LineCol 1 3) (LineCol 1 4)))); (Tok (mktok TK_SemiSemi [] [59;59] (mkspan (LineCol 1 4) (LineCol 1 6)))); (Tok (mktok TK_Symbol [] [99] (mkspan (LineCol 1 6) (LineCol 1 7))))]); (Tok (mktok TK_Fake_ImplicitTimes [] [] (mkspan (LineCol 1 7) (LineCol 1 7)))); (Op KTernary TOP_Span [(Tok (mktok TK_Fake_ImplicitOne [] [] (mkspan (LineCol 1 7) (LineCol 1 7)))); (Tok (mktok TK_SemiSemi [] [59;59] (mkspan (LineCol 1 7) (LineCol 1 9)))); (Tok (mktok TK_Fake_ImplicitAll [] [] (mkspan (LineCol 1 9) (LineCol 1 9)))); (Tok (mktok TK_SemiSemi [] [59;59] (mkspan (LineCol 1 9) (LineCol 1 11)))); (Tok (mktok TK_Symbol [] [98] (mkspan (LineCol 1 11) (LineCol 1 12))))])]).
Proof. vm_compute. reflexivity. Qed.

(** tests/test_parse_cst.rs test_span *)
Example rust_075_test_span : (rmap (fun p => strip (fst p)) (parse_cst default_opts true NotScript [59;59;59;59;97;59;59;99;59;59;98])) = Ok (Op KInfix IOP_Times [(Op KTernary TOP_Span [(Tok (mktok TK_Fake_ImplicitOne [] [] (mkspan (LineCol 1 1) (LineCol 1 1)))); (Tok (mktok TK_SemiSemi [] [59;59] (mkspan (LineCol 1 1) (LineCol 1 3)))); (Tok (mktok TK_Fake_ImplicitAll [] [] (mkspan (LineCol 1 3) (LineCol 1 3)))); (Tok (mktok TK_SemiSemi [] [59;59] (mkspan (LineCol 1 3) (LineCol 1 5)))); (Tok (mktok TK_Symbol [] [97] (mkspan (LineCol 1 5) (LineCol 1 6))))]); (Tok (mktok TK_Fake_ImplicitTimes [] [] (mkspan (LineCol 1 6) (LineCol 1 6)))); (Op KTernary TOP_Span [(Tok (mktok TK_Fake_ImplicitOne [] [] (mkspan (LineCol 1 6) (LineCol 1 6)))); (Tok (mktok TK_SemiSemi [] [59;59] (mkspan (LineCol 1 6) (LineCol 1 8)))); (Tok (mktok TK_Symbol [] [99] (mkspan (LineCol 1 8) (LineCol 1 9)))); (Tok (mktok TK_SemiSemi [] [59;59] (mkspan (LineCol 1 9) (LineCol 1 11)))); (Tok (mktok TK_Symbol [] [98] (mkspan (LineCol 1 11) (LineCol 1 12))))])]).
Proof. vm_compute. reflexivity. Qed.

(** tests/test_parse_cst.rs test_span *)
Example rust_076_test_span : (rmap (fun p => strip (fst p)) (parse_cst default_opts true NotScript [99;59;59;59;59;59;59;97;59;59;98])) = Ok (Op KInfix IOP_Times [(Op KBinary BOP_Span [(Tok (mktok TK_Symbol [] [99] (mkspan (LineCol 1 1) (LineCol 1 2)))); (Tok (mktok TK_SemiSemi [] [59;59] (mkspan (LineCol 1 2) (LineCol 1 4)))); (Tok (mktok TK_Fake_ImplicitAll [] [] (mkspan (LineCol 1 4) (LineCol 1 4))))]); (Tok (mktok TK_Fake_ImplicitTimes [] [] (mkspan (LineCol 1 4) (LineCol 1 4)))); (Op KTernary TOP_Span [(Tok (mktok TK_Fake_ImplicitOne [] [] (mkspan (LineCol 1 4) (LineCol 1 4)))); (Tok (mktok TK_SemiSemi [] [59;59] (mkspan (LineCol 1 4) (LineCol 1 6)))); (Tok (mktok TK_Fake_ImplicitAll [] [] (mkspan (LineCol 1 6) (LineCol 1 6)))); (Tok (mktok TK_SemiSemi [] [59;59] (mkspan (LineCol 1 6) (LineCol 1 8)))); (Tok (mktok TK_Symbol [] [97] (mkspan (LineCol 1 8) (LineCol 1 9))))]); (Tok (mktok TK_Fake_ImplicitTimes [] [] (mkspan (LineCol 1 9) (LineCol 1 9)))); (Op KBinary BOP_Span [(Tok (mktok TK_Fake_ImplicitOne [] [] (mkspan (LineCol 1 9) (LineCol 1 9)))); (Tok (mktok TK_SemiSemi [] [59;59] (mkspan (LineCol 1 9) (LineCol 1 11)))); (Tok (mktok TK_Symbol [] [98] (mkspan (LineCol 1 11) (LineCol 1 12))))])]).
Proof. vm_compute. reflexivity. Qed.

(** tests/test_parse_cst.rs test_span *)
Example rust_077_test_span : (rmap (fun p => strip (fst p)) (parse_cst default_opts true NotScript [123;32;59;59;10;59;59;32;125])) = Ok (Op KGroup GOP_List [(Tok (mktok TK_OpenCurly [] [123] (mkspan (LineCol 1 1) (LineCol 1 2)))); (Tok (mktok TK_Whitespace [] [32] (mkspan (LineCol 1 2) (LineCol 1 3)))); (Op KInfix IOP_Times [(Op KBinary BOP_Span [(Tok (mktok TK_Fake_ImplicitOne [] [] (mkspan (LineCol 1 3) (LineCol 1 3)))); (Tok (mktok TK_SemiSemi [] [59;59] (mkspan (LineCol 1 3) (LineCol 1 5)))); (Tok (mktok TK_InternalNewline [] [10] (mkspan (LineCol 1 5) (LineCol 2 1)))); (Tok (mktok TK_Fake_ImplicitAll [] [] (mkspan (LineCol 2 1) (LineCol 2 1))))]); (Tok (mktok TK_Fake_ImplicitTimes [] [] (mkspan (LineCol 2 1) (LineCol 2 1)))); (Op KBinary BOP_Span [(Tok (mktok TK_Fake_ImplicitOne [] [] (mkspan (LineCol 2 1) (LineCol 2 1)))); (Tok (mktok TK_SemiSemi [] [59;59] (mkspan (LineCol 2 1) (LineCol 2 3)))); (Tok (mktok TK_Whitespace [] [32] (mkspan (LineCol 2 3) (LineCol 2 4)))); (Tok (mktok TK_Fake_ImplicitAll [] [] (mkspan (LineCol 2 4) (LineCol 2 4))))])]); (Tok (mktok TK_CloseCurly [] [125] (mkspan (LineCol 2 4) (LineCol 2 5))))]).
Proof. vm_compute. reflexivity. Qed.

(** tests/test_parse_cst.rs test_span *)
Example rust_078_test_span : (rmap (fun p => strip (fst p)) (parse_cst default_opts true NotScript [123;32;59;59;10;59;59;97;32;125])) = Ok (Op KGroup GOP_List [(Tok (mktok TK_OpenCurly [] [123] (mkspan (LineCol 1 1) (LineCol 1 2)))); (Tok (mktok TK_Whitespace [] [32] (mkspan (LineCol 1 2) (LineCol 1 3)))); (Op KTernary TOP_Span [(Tok (mktok TK_Fake_ImplicitOne [] [] (mkspan (LineCol 1 3) (LineCol 1 3)))); (Tok (mktok TK_SemiSemi [] [59;59] (mkspan (LineCol 1 3) (LineCol 1 5)))); (Tok (mktok TK_InternalNewline [] [10] (mkspan (LineCol 1 5) (LineCol 2 1)))); (Tok (mktok TK_Fake_ImplicitAll [] [] (mkspan (LineCol 2 1) (LineCol 2 1)))); (Tok (mktok TK_SemiSemi [] [59;59] (mkspan (LineCol 2 1) (LineCol 2 3)))); (Tok (mktok TK_Symbol [] [97] (mkspan (LineCol 2 3) (LineCol 2 4))))]); (Tok (mktok TK_Whitespace [] [32] (mkspan (LineCol 2 4) (LineCol 2 5)))); (Tok (mktok TK_CloseCurly [] [125] (mkspan (LineCol 2 5) (LineCol 2 6))))]).
Proof. vm_compute. reflexivity. Qed.

(** tests/test_parse_cst.rs test_span *)
Example rust_079_test_span : (rmap (fun p => strip (fst p)) (parse_cst default_opts true NotScript [59;59;59;59;59;59;59;59])) = Ok (Op KInfix IOP_Times [(Op KBinary BOP_Span [(Tok (mktok TK_Fake_ImplicitOne [] [] (mkspan (LineCol 1 1) (LineCol 1 1)))); (Tok (mktok TK_SemiSemi [] [59;59] (mkspan (LineCol 1 1) (LineCol 1 3)))); (Tok (mktok TK_Fake_ImplicitAll [] [] (mkspan (LineCol 1 3) (LineCol 1 3))))]); (Tok (mktok TK_Fake_ImplicitTimes [] [] (mkspan (LineCol 1 3) (LineCol 1 3)))); (Op KBinary BOP_Span [(Tok (mktok TK_Fake_ImplicitOne [] [] (mkspan (LineCol 1 3) (LineCol 1 3)))); (Tok (mktok TK_SemiSemi [] [59;59] (mkspan (LineCol 1 3) (LineCol 1 5)))); (Tok (mktok TK_Fake_ImplicitAll [] [] (mkspan (LineCol 1 5) (LineCol 1 5))))]); (Tok (mktok TK_Fake_ImplicitTimes [] [] (mkspan (LineCol 1 5) (LineCol 1 5)))); (Op KBinary BOP_Span [(Tok (mktok TK_Fake_ImplicitOne [] [] (mkspan (LineCol 1 5) (LineCol 1 5)))); (Tok (mktok TK_SemiSemi [] [59;59] (mkspan (LineCol 1 5) (LineCol 1 7)))); (Tok (mktok TK_Fake_ImplicitAll [] [] (mkspan (LineCol 1 7) (LineCol 1 7))))]); (Tok (mktok TK_Fake_ImplicitTimes [] [] (mkspan (LineCol 1 7) (LineCol 1 7)))); (Op KBinary BOP_Span [(Tok (mktok TK_Fake_ImplicitOne [] [] (mkspan (LineCol 1 7) (LineCol 1 7)))); (Tok (mktok TK_SemiSemi [] [59;59] (mkspan (LineCol 1 7) (LineCol 1 9)))); (Tok (mktok TK_Fake_ImplicitAll [] [] (mkspan (LineCol 1 9) (LineCol 1 9))))])]).
Proof. vm_compute. reflexivity. Qed.

(** tests/test_parse_cst.rs test_span *)
Example rust_080_test_span : (rmap (fun p => strip (fst p)) (parse_cst default_opts true NotScript [97;59;59;98;59;59;99;59;59;100;59;59;101])) = Ok (Op KInfix IOP_Times [(Op KTernary TOP_Span [(Tok (mktok TK_Symbol [] [97] (mkspan (LineCol 1 1) (LineCol 1 2)))); (Tok (mktok TK_SemiSemi [] [59;59] (mkspan (LineCol 1 2) (LineCol 1 4)))); (Tok (mktok TK_Symbol [] [98] (mkspan (LineCol 1 4) (LineCol 1 5)))); (Tok (mktok TK_SemiSemi [] [59;59] (mkspan (LineCol 1 5) (LineCol 1 7)))); (Tok (mktok TK_Symbol [] [99] (mkspan (LineCol 1 7) (LineCol 1 8))))]); (Tok (mktok TK_Fake_ImplicitTimes [] [] (mkspan (LineCol 1 8) (LineCol 1 8)))); (Op KTernary TOP_Span [(Tok (mktok TK_Fake_ImplicitOne [] [] (mkspan (LineCol 1 8) (LineCol 1 8)))); (Tok (mktok TK_SemiSemi [] [59;59] (mkspan (LineCol 1 8) (LineCol 1 10)))); (Tok (mktok TK_Symbol [] [100] (mkspan (LineCol 1 10) (LineCol 1 11)))); (Tok (mktok TK_SemiSemi [] [59;59] (mkspan (LineCol 1 11) (LineCol 1 13)))); (Tok (mktok TK_Symbol [] [101] (mkspan (LineCol 1 13) (LineCol 1 14))))])]).
Proof. vm_compute. reflexivity. Qed.

(** tests/test_parse_cst.rs test_span *)
Example rust_081_test_span : (rmap (fun p => strip (fst p)) (parse_cst default_opts true NotScript [97;59;59;98;59;59;99;59;59;100;59;59;101;59;59;102])) = Ok (Op KInfix IOP_Times [(Op KTernary TOP_Span [(Tok (mktok TK_Symbol [] [97] (mkspan (LineCol 1 1) (LineCol 1 2)))); (Tok (mktok TK_SemiSemi [] [59;59] (mkspan (LineCol 1 2) (LineCol 1 4)))); (Tok (mktok TK_Symbol [] [98] (mkspan (LineCol 1 4) (LineCol 1 5)))); (Tok (mktok TK_SemiSemi [] [59;59] (mkspan (LineCol 1 5) (LineCol 1 7)))); (Tok (mktok TK_Symbol [] [99] (mkspan (LineCol 1 7) (LineCol 1 8))))]); (Tok (mktok TK_Fake_ImplicitTimes [] [] (mkspan (LineCol 1 8) (LineCol 1 8)))); (Op KTernary TOP_Span [(Tok (mktok TK_Fake_ImplicitOne [] [] (mkspan (LineCol 1 8) (LineCol 1 8)))); (Tok (mktok TK_SemiSemi [] [59;59] (mkspan (LineCol 1 8) (LineCol 1 10)))); (Tok (mktok TK_Symbol [] [100] (mkspan (LineCol 1 10) (LineCol 1 11)))); (Tok (mktok TK_SemiSemi [] [59;59] (mkspan (LineCol 1 11) (LineCol 1 13)))); (Tok (mktok TK_Symbol [] [101] (mkspan (LineCol 1 13) (LineCol 1 14))))]); (Tok (mktok TK_Fake_ImplicitTimes [] [] (mkspan (LineCol 1 14) (LineCol 1 14)))); (Op KBinary BOP_Span [(Tok (mktok TK_Fake_ImplicitOne [] [] (mkspan (LineCol 1 14) (LineCol 1 14)))); (Tok (mktok TK_SemiSemi [] [59;59] (mkspan (LineCol 1 14) (LineCol 1 16)))); (Tok (mktok TK_Symbol [] [102] (mkspan (LineCol 1 16) (LineCol 1 17))))])]).
Proof. vm_compute. reflexivity. Qed.

(** tests/test_parse_cst.rs test_span *)
Example rust_082_test_span : (rmap (fun p => strip (fst p)) (parse_cst default_opts true NotScript [97;59;59;98;59;59;99;59;59;100;59;59;101;59;59;102;59;59;103])) = Ok (Op KInfix IOP_Times [(Op KTernary TOP_Span [(Tok (mktok TK_Symbol [] [97] (mkspan (LineCol 1 1) (LineCol 1 2)))); (Tok (mktok TK_SemiSemi [] [59;59] (mkspan (LineCol 1 2) (LineCol 1 4)))); (Tok (mktok TK_Symbol [] [98] (mkspan (LineCol 1 4) (LineCol 1 5)))); (Tok (mktok TK_SemiSemi [] [59;59] (mkspan (LineCol 1 5) (LineCol 1 7)))); (Tok (mktok TK_Symbol [] [99] (mkspan (LineCol 1 7) (LineCol 1 8))))]); (Tok (mktok TK_Fake_ImplicitTimes [] [] (mkspan (LineCol 1 8) (LineCol 1 8)))); (Op KTernary TOP_Span [(Tok (mktok TK_Fake_ImplicitOne [] [] (mkspan (LineCol 1 8) (LineCol 1 8)))); (Tok (mktok TK_SemiSemi [] [59;59] (mkspan (LineCol 1 8) (LineCol 1 10)))); (Tok (mktok TK_Symbol [] [100] (mkspan (LineCol 1 10) (LineCol 1 11)))); (Tok (mktok TK_SemiSemi [] [59;59] (mkspan (LineCol 1 11) (LineCol 1 13)))); (Tok (mktok TK_Symbol [] [101] (mkspan (LineCol 1 13) (LineCol 1 14))))]); (Tok (mktok TK_Fake_ImplicitTimes [] [] (mkspan (LineCol 1 14) (LineCol 1 14)))); (Op KTernary TOP_Span [(Tok (mktok TK_Fake_ImplicitOne [] [] (mkspan (LineCol 1 14) (LineCol 1 14)))); (Tok (mktok TK_SemiSemi [] [59;59] (mkspan (LineCol 1 14) (LineCol 1 16)))); (Tok (mktok TK_Symbol [] [102] (mkspan (LineCol 1 16) (LineCol 1 17)))); (Tok (mktok TK_SemiSemi [] [59;59] (mkspan (LineCol 1 17) (LineCol 1 19)))); (Tok (mktok TK_Symbol [] [103] (mkspan (LineCol 1 19) (LineCol 1 20))))])]).
Proof. vm_compute. reflexivity. Qed.

(** tests/test_parse_cst.rs test_span *)
Example rust_083_test_span : (rmap (fun p => strip (fst p)) (parse_cst default_opts true NotScript [97;59;59;98;59;59;99;59;59;100;59;59;101;59;59;102;59;59;103;59;59;104])) = Ok (Op KInfix IOP_Times [(Op KTernary TOP_Span [(Tok (mktok TK_Symbol [] [97] (mkspan (LineCol 1 1) (LineCol 1 2)))); (Tok (mktok TK_SemiSemi [] [59;59] (mkspan (LineCol 1 2) (LineCol 1 4)))); (Tok (mktok TK_Symbol [] [98] (mkspan (LineCol 1 4) (LineCol 1 5)))); (Tok (mktok TK_SemiSemi [] [59;59] (mkspan (LineCol 1 5) (LineCol 1 7)))); (Tok (mktok TK_Symbol [] [99] (mkspan (LineCol 1 7) (LineCol 1 8))))]); (Tok (mktok TK_Fake_ImplicitTimes [] [] (mkspan (LineCol 1 8) (LineCol 1 8)))); (Op KTernary TOP_Span [(Tok (mktok TK_Fake_ImplicitOne [] [] (mkspan (LineCol 1 8) (LineCol 1 8)))); (Tok (mktok TK_SemiSemi [] [59;59] (mkspan (LineCol 1 8) (LineCol 1 10)))); (Tok (mktok TK_Symbol [] [100] (mkspan (LineCol 1 10) (LineCol 1 11)))); (Tok (mktok TK_SemiSemi [] [59;59] (mkspan (LineCol 1 11) (LineCol 1 13)))); (Tok (mktok TK_Symbol [] [101] (mkspan (LineCol 1 13) (LineCol 1 14))))]); (Tok (mktok TK_Fake_ImplicitTimes [] [] (mkspan (LineCol 1 14) (LineCol 1 14)))); (Op KTernary TOP_Span [(Tok (mktok TK_Fake_ImplicitOne [] [] (mkspan (LineCol 1 14) (LineCol 1 14)))); (Tok (mktok TK_SemiSemi [] [59;59] (mkspan (LineCol 1 14) (LineCol 1 16)))); (Tok (mktok TK_Symbol [] [102] (mkspan (LineCol 1 16) (LineCol 1 17)))); (Tok (mktok TK_SemiSemi [] [59;59] (mkspan (LineCol 1 17) (LineCol 1 19)))); (Tok (mktok TK_Symbol [] [103] (mkspan (LineCol 1 19) (LineCol 1 20))))]); (Tok (mktok TK_Fake_ImplicitTimes [] [] (mkspan (LineCol 1 20) (LineCol 1 20)))); (Op KBinary BOP_Span [(Tok (mktok TK_Fake_ImplicitOne [] [] (mkspan (LineCol 1 20) (LineCol 1 20)))); (Tok (mktok TK_SemiSemi [] [59;59] (mkspan (LineCol 1 20) (LineCol 1 22)))); (Tok (mktok TK_Symbol [] [104] (mkspan (LineCol 1 22) (LineCol 1 23))))])]).
Proof. vm_compute. reflexivity. Qed.

(** tests/test_parse_cst.rs test_span *)
Example rust_084_test_span : (rmap (fun p => strip (fst p)) (parse_cst default_opts true NotScript [97;59;59;59;59;59])) = Ok (Op KInfix IOP_CompoundExpression [(Op KInfix IOP_Times [(Op KBinary BOP_Span [(Tok (mktok TK_Symbol [] [97] (mkspan (LineCol 1 1) (LineCol 1 2)))); (Tok (mktok TK_SemiSemi [] [59;59] (mkspan (LineCol 1 2) (LineCol 1 4)))); (Tok (mktok TK_Fake_ImplicitAll [] [] (mkspan (LineCol 1 4) (LineCol 1 4))))]); (Tok (mktok TK_Fake_ImplicitTimes [] [] (mkspan (LineCol 1 4) (LineCol 1 4)))); (Op KBinary BOP_Span [(Tok (mktok TK_Fake_ImplicitOne [] [] (mkspan (LineCol 1 4) (LineCol 1 4)))); (Tok (mktok TK_SemiSemi [] [59;59] (mkspan (LineCol 1 4) (LineCol 1 6)))); (Tok (mktok TK_Fake_ImplicitAll [] [] (mkspan (LineCol 1 6) (LineCol 1 6))))])]); (Tok (mktok TK_Semi [] [59] (mkspan (LineCol 1 6) (LineCol 1 7)))); (Tok (mktok TK_Fake_ImplicitNull [] [] (mkspan (LineCol 1 7) (LineCol 1 7))))]).
Proof. vm_compute. reflexivity. Qed.

(** tests/test_parse_cst.rs test_span *)
Example rust_085_test_span : (rmap (fun p => strip (fst p)) (parse_cst default_opts true NotScript [98;59;59;97;59;59;59])) = Ok (Op KInfix IOP_CompoundExpression [(Op KInfix IOP_Times [(Op KBinary BOP_Span [(Tok (mktok TK_Symbol [] [98] (mkspan (LineCol 1 1) (LineCol 1 2)))); (Tok (mktok TK_SemiSemi [] [59;59] (mkspan (LineCol 1 2) (LineCol 1 4)))); (Tok (mktok TK_Symbol [] [97] (mkspan (LineCol 1 4) (LineCol 1 5))))]); (Tok (mktok TK_Fake_ImplicitTimes [] [] (mkspan (LineCol 1 5) (LineCol 1 5)))); (Op KBinary BOP_Span [(Tok (mktok TK_Fake_ImplicitOne [] [] (mkspan (LineCol 1 5) (LineCol 1 5)))); (Tok (mktok TK_SemiSemi [] [59;59] (mkspan (LineCol 1 5) (LineCol 1 7)))); (Tok (mktok TK_Fake_ImplicitAll [] [] (mkspan (LineCol 1 7) (LineCol 1 7))))])]); (Tok (mktok TK_Semi [] [59] (mkspan (LineCol 1 7) (LineCol 1 8)))); (Tok (mktok TK_Fake_ImplicitNull [] [] (mkspan (LineCol 1 8) (LineCol 1 8))))]).
Proof. vm_compute. reflexivity. Qed.

(** tests/test_parse_cst.rs test_span *)
Example rust_086_test_span : (rmap (fun p => strip (fst p)) (parse_cst default_opts true NotScript [59;59;97;59;59;59])) = Ok (Op KInfix IOP_CompoundExpression [(Op KInfix IOP_Times [(Op KBinary BOP_Span [(Tok (mktok TK_Fake_ImplicitOne [] [] (mkspan (LineCol 1 1) (LineCol 1 1)))); (Tok (mktok TK_SemiSemi [] [59;59] (mkspan (LineCol 1 1) (LineCol 1 3)))); (Tok (mktok TK_Symbol [] [97] (mkspan (LineCol 1 3) (LineCol 1 4))))]); (Tok (mktok TK_Fake_ImplicitTimes [] [] (mkspan (LineCol 1 4) (LineCol 1 4)))); (Op KBinary BOP_Span [(Tok (mktok TK_Fake_ImplicitOne [] [] (mkspan (LineCol 1 4) (LineCol 1 4)))); (Tok (mktok TK_SemiSemi [] [59;59] (mkspan (LineCol 1 4) (LineCol 1 6)))); (Tok (mktok TK_Fake_ImplicitAll [] [] (mkspan (LineCol 1 6) (LineCol 1 6))))])]); (Tok (mktok TK_Semi [] [59] (mkspan (LineCol 1 6) (LineCol 1 7)))); (Tok (mktok TK_Fake_ImplicitNull [] [] (mkspan (LineCol 1 7) (LineCol 1 7))))]).
Proof. vm_compute. reflexivity. Qed.

(** tests/test_parse_cst.rs test_span *)
Example rust_087_test_span : (one_ast default_opts [97;59;59;33]) = Ok (ACall (ALeaf TK_Symbol [83;112;97;110] (mk_ameta Unknown [])) [(ALeaf TK_Symbol [97] (mk_ameta (Known (mkspan (LineCol 1 1) (LineCol 1 2))) [])); (ACall (ALeaf TK_Symbol [78;111;116] (mk_ameta Unknown [])) [(AError TK_Error_ExpectedOperand [] (mk_ameta (Known (mkspan (LineCol 1 5) (LineCol 1 5))) []))] (mk_ameta (Known (mkspan (LineCol 1 4) (LineCol 1 5))) []))] (mk_ameta (Known (mkspan (LineCol 1 1) (LineCol 1 5))) [])).
Proof. vm_compute. reflexivity. Qed.

(** tests/test_parse_cst.rs test_span *)
Example rust_088_test_span : (rmap (fun p => strip (fst p)) (parse_cst default_opts true NotScript [59;59;32;59;59;32;59;59])) = Ok (Op KInfix IOP_Times [(Op KBinary BOP_Span [(Tok (mktok TK_Fake_ImplicitOne [] [] (mkspan (LineCol 1 1) (LineCol 1 1)))); (Tok (mktok TK_SemiSemi [] [59;59] (mkspan (LineCol 1 1) (LineCol 1 3)))); (Tok (mktok TK_Whitespace [] [32] (mkspan (LineCol 1 3) (LineCol 1 4)))); (Tok (mktok TK_Fake_ImplicitAll [] [] (mkspan (LineCol 1 4) (LineCol 1 4))))]); (Tok (mktok TK_Fake_ImplicitTimes [] [] (mkspan (LineCol 1 4) (LineCol 1 4)))); (Op KBinary BOP_Span [(Tok (mktok TK_Fake_ImplicitOne [] [] (mkspan (LineCol 1 4) (LineCol 1 4)))); (Tok (mktok TK_SemiSemi [] [59;59] (mkspan (LineCol 1 4) (LineCol 1 6)))); (Tok (mktok TK_Whitespace [] [32] (mkspan (LineCol 1 6) (LineCol 1 7)))); (Tok (mktok TK_Fake_ImplicitAll [] [] (mkspan (LineCol 1 7) (LineCol 1 7))))]); (Tok (mktok TK_Fake_ImplicitTimes [] [] (mkspan (LineCol 1 7) (LineCol 1 7)))); (Op KBinary BOP_Span [(Tok (mktok TK_Fake_ImplicitOne [] [] (mkspan (LineCol 1 7) (LineCol 1 7)))); (Tok (mktok TK_SemiSemi [] [59;59] (mkspan (LineCol 1 7) (LineCol 1 9)))); (Tok (mktok TK_Fake_ImplicitAll [] [] (mkspan (LineCol 1 9) (LineCol 1 9))))])]).
Proof. vm_compute. reflexivity. Qed.

(** tests/test_parse_cst.rs test_span *)
Example rust_089_test_span : (rmap (fun p => strip (fst p)) (parse_cst default_opts true NotScript [97;32;59;59;32;38])) = Ok (Op KPostfix POSTOP_Function [(Op KBinary BOP_Span [(Tok (mktok TK_Symbol [] [97] (mkspan (LineCol 1 1) (LineCol 1 2)))); (Tok (mktok TK_Whitespace [] [32] (mkspan (LineCol 1 2) (LineCol 1 3)))); (Tok (mktok TK_SemiSemi [] [59;59] (mkspan (LineCol 1 3) (LineCol 1 5)))); (Tok (mktok TK_Whitespace [] [32] (mkspan (LineCol 1 5) (LineCol 1 6)))); (Tok (mktok TK_Fake_ImplicitAll [] [] (mkspan (LineCol 1 6) (LineCol 1 6))))]); (Tok (mktok TK_Amp [] [38] (mkspan (LineCol 1 6) (LineCol 1 7))))]).
Proof. vm_compute. reflexivity. Qed.

(** tests/test_parse_cst.rs test_span *)
Example rust_090_test_span : (rmap (fun p => map strip (fst p)) (parse_cst_seq default_opts true NotScript [97;32;59;59;32;92;116])) = Ok [(Op KBinary BOP_Span [(Tok (mktok TK_Symbol [] [97] (mkspan (LineCol 1 1) (LineCol 1 2)))); (Tok (mktok TK_Whitespace [] [32] (mkspan (LineCol 1 2) (LineCol 1 3)))); (Tok (mktok TK_SemiSemi [] [59;59] (mkspan (LineCol 1 3) (LineCol 1 5)))); (Tok (mktok TK_Whitespace [] [32] (mkspan (LineCol 1 5) (LineCol 1 6)))); (Tok (mktok TK_Fake_ImplicitAll [] [] (mkspan (LineCol 1 6) (LineCol 1 6))))]); (Tok (mktok TK_Error_UnhandledCharacter [] [92;116] (mkspan (LineCol 1 6) (LineCol 1 8))))].
Proof. vm_compute. reflexivity. Qed.

(** tests/test_parse_cst.rs test_span *)
Example rust_091_test_span : (rmap (fun p => strip (fst p)) (parse_cst default_opts true NotScript [97;32;59;59;32;98;32;59;59;32;99])) = Ok (Op KTernary TOP_Span [(Tok (mktok TK_Symbol [] [97] (mkspan (LineCol 1 1) (LineCol 1 2)))); (Tok (mktok TK_Whitespace [] [32] (mkspan (LineCol 1 2) (LineCol 1 3)))); (Tok (mktok TK_SemiSemi [] [59;59] (mkspan (LineCol 1 3) (LineCol 1 5)))); (Tok (mktok TK_Whitespace [] [32] (mkspan (LineCol 1 5) (LineCol 1 6)))); (Tok (mktok TK_Symbol [] [98] (mkspan (LineCol 1 6) (LineCol 1 7)))); (Tok (mktok TK_Whitespace [] [32] (mkspan (LineCol 1 7) (LineCol 1 8)))); (Tok (mktok TK_SemiSemi [] [59;59] (mkspan (LineCol 1 8) (LineCol 1 10)))); (Tok (mktok TK_Whitespace [] [32] (mkspan (LineCol 1 10) (LineCol 1 11)))); (Tok (mktok TK_Symbol [] [99] (mkspan (LineCol 1 11) (LineCol 1 12))))]).
Proof. vm_compute. reflexivity. Qed.

(** tests/test_parse_cst.rs test_tilde *)
Example rust_092_test_tilde : (rmap (fun p => strip (fst p)) (parse_cst default_opts true NotScript [97;126;102;126;98])) = Ok (Op KTernary TOP_CodeParser_TernaryTilde [(Tok (mktok TK_Symbol [] [97] (mkspan (LineCol 1 1) (LineCol 1 2)))); (Tok (mktok TK_Tilde [] [126] (mkspan (LineCol 1 2) (LineCol 1 3)))); (Tok (mktok TK_Symbol [] [102] (mkspan (LineCol 1 3) (LineCol 1 4)))); (Tok (mktok TK_Tilde [] [126] (mkspan (LineCol 1 4) (LineCol 1 5)))); (Tok (mktok TK_Symbol [] [98] (mkspan (LineCol 1 5) (LineCol 1 6))))]).
Proof. vm_compute. reflexivity. Qed.

(** tests/test_parse_cst.rs test_tilde *)
Example rust_093_test_tilde : (rmap (fun p => strip (fst p)) (parse_cst default_opts true NotScript [97;126;102;126])) = Ok (Op KTernary TOP_CodeParser_TernaryTilde [(Tok (mktok TK_Symbol [] [97] (mkspan (LineCol 1 1) (LineCol 1 2)))); (Tok (mktok TK_Tilde [] [126] (mkspan (LineCol 1 2) (LineCol 1 3)))); (Tok (mktok TK_Symbol [] [102] (mkspan (LineCol 1 3) (LineCol 1 4)))); (Tok (mktok TK_Tilde [] [126] (mkspan (LineCol 1 4) (LineCol 1 5)))); (Tok (mktok TK_Error_ExpectedOperand [] [] (mkspan (LineCol 1 5) (LineCol 1 5))))]).
Proof. vm_compute. reflexivity. Qed.

(** tests/test_parse_cst.rs test_tilde *)
Example rust_094_test_tilde : (rmap (fun p => strip (fst p)) (parse_cst default_opts true NotScript [97;126;32;126;98])) = Ok (Op KTernary TOP_CodeParser_TernaryTilde [(Tok (mktok TK_Symbol [] [97] (mkspan (LineCol 1 1) (LineCol 1 2)))); (Tok (mktok TK_Tilde [] [126] (mkspan (LineCol 1 2) (LineCol 1 3)))); (Tok (mktok TK_Whitespace [] [32] (mkspan (LineCol 1 3) (LineCol 1 4)))); (Tok (mktok TK_Error_ExpectedOperand [] [] (mkspan (LineCol 1 4) (LineCol 1 4)))); (Tok (mktok TK_Tilde [] [126] (mkspan (LineCol 1 4) (LineCol 1 5)))); (Tok (mktok TK_Symbol [] [98] (mkspan (LineCol 1 5) (LineCol 1 6))))]).
Proof. vm_compute. reflexivity. Qed.

(** tests/test_parse_cst.rs test_tilde *)
Example rust_095_test_tilde : (rmap (fun p => strip (fst p)) (parse_cst default_opts true NotScript [126;32;126])) = Ok (Op KTernary TOP_CodeParser_TernaryTilde [(Tok (mktok TK_Error_ExpectedOperand [] [] (mkspan (LineCol 1 1) (LineCol 1 1)))); (Tok (mktok TK_Tilde [] [126] (mkspan (LineCol 1 1) (LineCol 1 2)))); (Tok (mktok TK_Whitespace [] [32] (mkspan (LineCol 1 2) (LineCol 1 3)))); (Tok (mktok TK_Error_ExpectedOperand [] [] (mkspan (LineCol 1 3) (LineCol 1 3)))); (Tok (mktok TK_Tilde [] [126] (mkspan (LineCol 1 3) (LineCol 1 4)))); (Tok (mktok TK_Error_ExpectedOperand [] [] (mkspan (LineCol 1 4) (LineCol 1 4))))]).
Proof. vm_compute. reflexivity. Qed.

(** tests/test_parse_cst.rs test_tilde *)
Example rust_096_test_tilde : (rmap (fun p => strip (fst p)) (parse_cst default_opts true NotScript [126;126])) = Ok (Op KInfix IOP_StringExpression [(Tok (mktok TK_Error_ExpectedOperand [] [] (mkspan (LineCol 1 1) (LineCol 1 1)))); (Tok (mktok TK_TildeTilde [] [126;126] (mkspan (LineCol 1 1) (LineCol 1 3)))); (Tok (mktok TK_Error_ExpectedOperand [] [] (mkspan (LineCol 1 3) (LineCol 1 3))))]).
Proof. vm_compute. reflexivity. Qed.

(** tests/test_parse_cst.rs test_tilde *)
Example rust_097_test_tilde : (rmap (fun p => strip (fst p)) (parse_cst default_opts true NotScript [97;126;120;126;102;126;121;126;98])) = Ok (Op KTernary TOP_CodeParser_TernaryTilde [(Op KTernary TOP_CodeParser_TernaryTilde [(Tok (mktok TK_Symbol [] [97] (mkspan (LineCol 1 1) (LineCol 1 2)))); (Tok (mktok TK_Tilde [] [126] (mkspan (LineCol 1 2) (LineCol 1 3)))); (Tok (mktok TK_Symbol [] [120] (mkspan (LineCol 1 3) (LineCol 1 4)))); (Tok (mktok TK_Tilde [] [126] (mkspan (LineCol 1 4) (LineCol 1 5)))); (Tok (mktok TK_Symbol [] [102] (mkspan (LineCol 1 5) (LineCol 1 6))))]); (Tok (mktok TK_Tilde [] [126] (mkspan (LineCol 1 6) (LineCol 1 7)))); (Tok (mktok TK_Symbol [] [121] (mkspan (LineCol 1 7) (LineCol 1 8)))); (Tok (mktok TK_Tilde [] [126] (mkspan (LineCol 1 8) (LineCol 1 9)))); (Tok (mktok TK_Symbol [] [98] (mkspan (LineCol 1 9) (LineCol 1 10))))]).
Proof. vm_compute. reflexivity. Qed.

(** tests/test_parse_cst.rs test_tilde *)
Example rust_098_test_tilde : (rmap (fun p => strip (fst p)) (parse_cst default_opts true NotScript [120;42;97;126;102;126;99])) = Ok (Op KInfix IOP_Times [(Tok (mktok TK_Symbol [] [120] (mkspan (LineCol 1 1) (LineCol 1 2)))); (Tok (mktok TK_Star [] [42] (mkspan (LineCol 1 2) (LineCol 1 3)))); (Op KTernary TOP_CodeParser_TernaryTilde [(Tok (mktok TK_Symbol [] [97] (mkspan (LineCol 1 3) (LineCol 1 4)))); (Tok (mktok TK_Tilde [] [126] (mkspan (LineCol 1 4) (LineCol 1 5)))); (Tok (mktok TK_Symbol [] [102] (mkspan (LineCol 1 5) (LineCol 1 6)))); (Tok (mktok TK_Tilde [] [126] (mkspan (LineCol 1 6) (LineCol 1 7)))); (Tok (mktok TK_Symbol [] [99] (mkspan (LineCol 1 7) (LineCol 1 8))))])]).
Proof. vm_compute. reflexivity. Qed.

(** tests/test_parse_cst.rs test_tilde *)
Example rust_099_test_tilde : (rmap (fun p => strip (fst p)) (parse_cst default_opts true NotScript [97;126;120;42;102;126;98])) = Ok (Op KInfix IOP_Times [(SynErr ExpectedTilde [(Tok (mktok TK_Symbol [] [97] (mkspan (LineCol 1 1) (LineCol 1 2)))); (Tok (mktok TK_Tilde [] [126] (mkspan (LineCol 1 2) (LineCol 1 3)))); (Tok (mktok TK_Symbol [] [120] (mkspan (LineCol 1 3) (LineCol 1 4))))]); (Tok (mktok TK_Star [] [42] (mkspan (LineCol 1 4) (LineCol 1 5)))); (SynErr ExpectedTilde [(Tok (mktok TK_Symbol [] [102] (mkspan (LineCol 1 5) (LineCol 1 6)))); (Tok (mktok TK_Tilde [] [126] (mkspan (LineCol 1 6) (LineCol 1 7)))); (Tok (mktok TK_Symbol [] [98] (mkspan (LineCol 1 7) (LineCol 1 8))))])]).
Proof. vm_compute. reflexivity. Qed.

(** tests/test_parse_cst.rs test_tilde *)
Example rust_100_test_tilde : (rmap (fun p => strip (fst p)) (parse_cst default_opts true NotScript [97;126;120;32;102;126;98])) = Ok (Op KInfix IOP_Times [(SynErr ExpectedTilde [(Tok (mktok TK_Symbol [] [97] (mkspan (LineCol 1 1) (LineCol 1 2)))); (Tok (mktok TK_Tilde [] [126] (mkspan (LineCol 1 2) (LineCol 1 3)))); (Tok (mktok TK_Symbol [] [120] (mkspan (LineCol 1 3) (LineCol 1 4))))]); (Tok (mktok TK_Whitespace [] [32] (mkspan (LineCol 1 4) (LineCol 1 5)))); (Tok (mktok TK_Fake_ImplicitTimes [] [] (mkspan (LineCol 1 5) (LineCol 1 5)))); (SynErr ExpectedTilde [(Tok (mktok TK_Symbol [] [102] (mkspan (LineCol 1 5) (LineCol 1 6)))); (Tok (mktok TK_Tilde [] [126] (mkspan (LineCol 1 6) (LineCol 1 7)))); (Tok (mktok TK_Symbol [] [98] (mkspan (LineCol 1 7) (LineCol 1 8))))])]).
Proof. vm_compute. reflexivity. Qed.

(** tests/test_parse_cst.rs test_tilde *)
Example rust_101_test_tilde : (rmap (fun p => strip (fst p)) (parse_cst default_opts true NotScript [97;126;40;120;42;102;41;126;98])) = Ok (Op KTernary TOP_CodeParser_TernaryTilde [(Tok (mktok TK_Symbol [] [97] (mkspan (LineCol 1 1) (LineCol 1 2)))); (Tok (mktok TK_Tilde [] [126] (mkspan (LineCol 1 2) (LineCol 1 3)))); (Op KGroup GOP_CodeParser_GroupParen [(Tok (mktok TK_OpenParen [] [40] (mkspan (LineCol 1 3) (LineCol 1 4)))); (Op KInfix IOP_Times [(Tok (mktok TK_Symbol [] [120] (mkspan (LineCol 1 4) (LineCol 1 5)))); (Tok (mktok TK_Star [] [42] (mkspan (LineCol 1 5) (LineCol 1 6)))); (Tok (mktok TK_Symbol [] [102] (mkspan (LineCol 1 6) (LineCol 1 7))))]); (Tok (mktok TK_CloseParen [] [41] (mkspan (LineCol 1 7) (LineCol 1 8))))]); (Tok (mktok TK_Tilde [] [126] (mkspan (LineCol 1 8) (LineCol 1 9)))); (Tok (mktok TK_Symbol [] [98] (mkspan (LineCol 1 9) (LineCol 1 10))))]).
Proof. vm_compute. reflexivity. Qed.

(** tests/test_parse_cst.rs test_tilde *)
Example rust_102_test_tilde : (rmap (fun p => strip (fst p)) (parse_cst default_opts true NotScript [97;32;126;102;32;120])) = Ok (Op KInfix IOP_Times [(SynErr ExpectedTilde [(Tok (mktok TK_Symbol [] [97] (mkspan (LineCol 1 1) (LineCol 1 2)))); (Tok (mktok TK_Whitespace [] [32] (mkspan (LineCol 1 2) (LineCol 1 3)))); (Tok (mktok TK_Tilde [] [126] (mkspan (LineCol 1 3) (LineCol 1 4)))); (Tok (mktok TK_Symbol [] [102] (mkspan (LineCol 1 4) (LineCol 1 5))))]); (Tok (mktok TK_Whitespace [] [32] (mkspan (LineCol 1 5) (LineCol 1 6)))); (Tok (mktok TK_Fake_ImplicitTimes [] [] (mkspan (LineCol 1 6) (LineCol 1 6)))); (Tok (mktok TK_Symbol [] [120] (mkspan (LineCol 1 6) (LineCol 1 7))))]).
Proof. vm_compute. reflexivity. Qed.

(** tests/test_parse_cst.rs test_tilde *)
Example rust_103_test_tilde : (rmap (fun p => strip (fst p)) (parse_cst default_opts true NotScript [97;126;102;59;59;126;98])) = Ok (SynErr ExpectedTilde [(Op KBinary BOP_Span [(SynErr ExpectedTilde [(Tok (mktok TK_Symbol [] [97] (mkspan (LineCol 1 1) (LineCol 1 2)))); (Tok (mktok TK_Tilde [] [126] (mkspan (LineCol 1 2) (LineCol 1 3)))); (Tok (mktok TK_Symbol [] [102] (mkspan (LineCol 1 3) (LineCol 1 4))))]); (Tok (mktok TK_SemiSemi [] [59;59] (mkspan (LineCol 1 4) (LineCol 1 6)))); (Tok (mktok TK_Fake_ImplicitAll [] [] (mkspan (LineCol 1 6) (LineCol 1 6))))]); (Tok (mktok TK_Tilde [] [126] (mkspan (LineCol 1 6) (LineCol 1 7)))); (Tok (mktok TK_Symbol [] [98] (mkspan (LineCol 1 7) (LineCol 1 8))))]).
Proof. vm_compute. reflexivity. Qed.

(** tests/test_parse_cst.rs test_tilde *)
Example rust_104_test_tilde : (rmap (fun p => strip (fst p)) (parse_cst default_opts true NotScript [97;126;102;59;59;120;126;98])) = Ok (Op KBinary BOP_Span [(SynErr ExpectedTilde [(Tok (mktok TK_Symbol [] [97] (mkspan (LineCol 1 1) (LineCol 1 2)))); (Tok (mktok TK_Tilde [] [126] (mkspan (LineCol 1 2) (LineCol 1 3)))); (Tok (mktok TK_Symbol [] [102] (mkspan (LineCol 1 3) (LineCol 1 4))))]); (Tok (mktok TK_SemiSemi [] [59;59] (mkspan (LineCol 1 4) (LineCol 1 6)))); (SynErr ExpectedTilde [(Tok (mktok TK_Symbol [] [120] (mkspan (LineCol 1 6) (LineCol 1 7)))); (Tok (mktok TK_Tilde [] [126] (mkspan (LineCol 1 7) (LineCol 1 8)))); (Tok (mktok TK_Symbol [] [98] (mkspan (LineCol 1 8) (LineCol 1 9))))])]).
Proof. vm_compute. reflexivity. Qed.

(** tests/test_parse_cst.rs test_tilde *)
Example rust_105_test_tilde : (rmap (fun p => strip (fst p)) (parse_cst default_opts true NotScript [97;126;102;59;59;120;59;59;126;98])) = Ok (Op KInfix IOP_Times [(Op KBinary BOP_Span [(SynErr ExpectedTilde [(Tok (mktok TK_Symbol [] [97] (mkspan (LineCol 1 1) (LineCol 1 2)))); (Tok (mktok TK_Tilde [] [126] (mkspan (LineCol 1 2) (LineCol 1 3)))); (Tok (mktok TK_Symbol [] [102] (mkspan (LineCol 1 3) (LineCol 1 4))))]); (Tok (mktok TK_SemiSemi [] [59;59] (mkspan (LineCol 1 4) (LineCol 1 6)))); (Tok (mktok TK_Symbol [] [120] (mkspan (LineCol 1 6) (LineCol 1 7))))]); (Tok (mktok TK_Fake_ImplicitTimes [] [] (mkspan (LineCol 1 7) (LineCol 1 7)))); (SynErr ExpectedTilde [(Op KBinary BOP_Span [(Tok (mktok TK_Fake_ImplicitOne [] [] (mkspan (LineCol 1 7) (LineCol 1 7)))); (Tok (mktok TK_SemiSemi [] [59;59] (mkspan (LineCol 1 7) (LineCol 1 9)))); (Tok (mktok TK_Fake_ImplicitAll [] [] (mkspan (LineCol 1 9) (LineCol 1 9))))]); (Tok (mktok TK_Tilde [] [126] (mkspan (LineCol 1 9) (LineCol 1 10)))); (Tok (mktok TK_Symbol [] [98] (mkspan (LineCol 1 10) (LineCol 1 11))))])]).
Proof. vm_compute. reflexivity. Qed.

(** tests/test_parse_cst.rs test_tilde *)
Example rust_106_test_tilde : (rmap (fun p => strip (fst p)) (parse_cst default_opts true NotScript [97;32;126;102;59;126;32;98])) = Ok (SynErr ExpectedTilde [(Op KInfix IOP_CompoundExpression [(SynErr ExpectedTilde [(Tok (mktok TK_Symbol [] [97] (mkspan (LineCol 1 1) (LineCol 1 2)))); (Tok (mktok TK_Whitespace [] [32] (mkspan (LineCol 1 2) (LineCol 1 3)))); (Tok (mktok TK_Tilde [] [126] (mkspan (LineCol 1 3) (LineCol 1 4)))); (Tok (mktok TK_Symbol [] [102] (mkspan (LineCol 1 4) (LineCol 1 5))))]); (Tok (mktok TK_Semi [] [59] (mkspan (LineCol 1 5) (LineCol 1 6)))); (Tok (mktok TK_Fake_ImplicitNull [] [] (mkspan (LineCol 1 6) (LineCol 1 6))))]); (Tok (mktok TK_Tilde [] [126] (mkspan (LineCol 1 6) (LineCol 1 7)))); (Tok (mktok TK_Whitespace [] [32] (mkspan (LineCol 1 7) (LineCol 1 8)))); (Tok (mktok TK_Symbol [] [98] (mkspan (LineCol 1 8) (LineCol 1 9))))]).
Proof. vm_compute. reflexivity. Qed.

(** tests/test_parse_cst.rs test_tilde *)
Example rust_107_test_tilde : (rmap (fun p => strip (fst p)) (parse_cst default_opts true NotScript [97;32;126;102;33;126;32;98])) = Ok (SynErr ExpectedTilde [(Op KPostfix POSTOP_Factorial [(SynErr ExpectedTilde [(Tok (mktok TK_Symbol [] [97] (mkspan (LineCol 1 1) (LineCol 1 2)))); (Tok (mktok TK_Whitespace [] [32] (mkspan (LineCol 1 2) (LineCol 1 3)))); (Tok (mktok TK_Tilde [] [126] (mkspan (LineCol 1 3) (LineCol 1 4)))); (Tok (mktok TK_Symbol [] [102] (mkspan (LineCol 1 4) (LineCol 1 5))))]); (Tok (mktok TK_Bang [] [33] (mkspan (LineCol 1 5) (LineCol 1 6))))]); (Tok (mktok TK_Tilde [] [126] (mkspan (LineCol 1 6) (LineCol 1 7)))); (Tok (mktok TK_Whitespace [] [32] (mkspan (LineCol 1 7) (LineCol 1 8)))); (Tok (mktok TK_Symbol [] [98] (mkspan (LineCol 1 8) (LineCol 1 9))))]).
Proof. vm_compute. reflexivity. Qed.

(** tests/test_parse_cst.rs test_tilde *)
Example rust_108_test_tilde : (rmap (fun p => strip (fst p)) (parse_cst default_opts true NotScript [97;126;102;43;120;38;126;98])) = Ok (SynErr ExpectedTilde [(Op KPostfix POSTOP_Function [(Op KInfix IOP_Plus [(SynErr ExpectedTilde [(Tok (mktok TK_Symbol [] [97] (mkspan (LineCol 1 1) (LineCol 1 2)))); (Tok (mktok TK_Tilde [] [126] (mkspan (LineCol 1 2) (LineCol 1 3)))); (Tok (mktok TK_Symbol [] [102] (mkspan (LineCol 1 3) (LineCol 1 4))))]); (Tok (mktok TK_Plus [] [43] (mkspan (LineCol 1 4) (LineCol 1 5)))); (Tok (mktok TK_Symbol [] [120] (mkspan (LineCol 1 5) (LineCol 1 6))))]); (Tok (mktok TK_Amp [] [38] (mkspan (LineCol 1 6) (LineCol 1 7))))]); (Tok (mktok TK_Tilde [] [126] (mkspan (LineCol 1 7) (LineCol 1 8)))); (Tok (mktok TK_Symbol [] [98] (mkspan (LineCol 1 8) (LineCol 1 9))))]).
Proof. vm_compute. reflexivity. Qed.

(** tests/test_parse_cst.rs test_tilde *)
Example rust_109_test_tilde : (rmap (fun p => strip (fst p)) (parse_cst default_opts true NotScript [97;126;102;43;120;33;126;98])) = Ok (Op KInfix IOP_Plus [(SynErr ExpectedTilde [(Tok (mktok TK_Symbol [] [97] (mkspan (LineCol 1 1) (LineCol 1 2)))); (Tok (mktok TK_Tilde [] [126] (mkspan (LineCol 1 2) (LineCol 1 3)))); (Tok (mktok TK_Symbol [] [102] (mkspan (LineCol 1 3) (LineCol 1 4))))]); (Tok (mktok TK_Plus [] [43] (mkspan (LineCol 1 4) (LineCol 1 5)))); (SynErr ExpectedTilde [(Op KPostfix POSTOP_Factorial [(Tok (mktok TK_Symbol [] [120] (mkspan (LineCol 1 5) (LineCol 1 6)))); (Tok (mktok TK_Bang [] [33] (mkspan (LineCol 1 6) (LineCol 1 7))))]); (Tok (mktok TK_Tilde [] [126] (mkspan (LineCol 1 7) (LineCol 1 8)))); (Tok (mktok TK_Symbol [] [98] (mkspan (LineCol 1 8) (LineCol 1 9))))])]).
Proof. vm_compute. reflexivity. Qed.

(** tests/test_parse_cst.rs test_tilde *)
Example rust_110_test_tilde : (rmap (fun p => strip (fst p)) (parse_cst default_opts true NotScript [97;126;102;43;120;33;126;98])) = Ok (Op KInfix IOP_Plus [(SynErr ExpectedTilde [(Tok (mktok TK_Symbol [] [97] (mkspan (LineCol 1 1) (LineCol 1 2)))); (Tok (mktok TK_Tilde [] [126] (mkspan (LineCol 1 2) (LineCol 1 3)))); (Tok (mktok TK_Symbol [] [102] (mkspan (LineCol 1 3) (LineCol 1 4))))]); (Tok (mktok TK_Plus [] [43] (mkspan (LineCol 1 4) (LineCol 1 5)))); (SynErr ExpectedTilde [(Op KPostfix POSTOP_Factorial [(Tok (mktok TK_Symbol [] [120] (mkspan (LineCol 1 5) (LineCol 1 6)))); (Tok (mktok TK_Bang [] [33] (mkspan (LineCol 1 6) (LineCol 1 7))))]); (Tok (mktok TK_Tilde [] [126] (mkspan (LineCol 1 7) (LineCol 1 8)))); (Tok (mktok TK_Symbol [] [98] (mkspan (LineCol 1 8) (LineCol 1 9))))])]).
Proof. vm_compute. reflexivity. Qed.

(** tests/test_parse_cst.rs test_tilde *)
Example rust_111_test_tilde : (rmap (fun p => strip (fst p)) (parse_cst default_opts true NotScript [97;126;102;63;120;33;126;98])) = Ok (SynErr ExpectedTilde [(Op KPostfix POSTOP_Factorial [(SynErr ExpectedTilde [(Tok (mktok TK_Symbol [] [97] (mkspan (LineCol 1 1) (LineCol 1 2)))); (Tok (mktok TK_Tilde [] [126] (mkspan (LineCol 1 2) (LineCol 1 3)))); (Op KBinary BOP_PatternTest [(Tok (mktok TK_Symbol [] [102] (mkspan (LineCol 1 3) (LineCol 1 4)))); (Tok (mktok TK_Question [] [63] (mkspan (LineCol 1 4) (LineCol 1 5)))); (Tok (mktok TK_Symbol [] [120] (mkspan (LineCol 1 5) (LineCol 1 6))))])]); (Tok (mktok TK_Bang [] [33] (mkspan (LineCol 1 6) (LineCol 1 7))))]); (Tok (mktok TK_Tilde [] [126] (mkspan (LineCol 1 7) (LineCol 1 8)))); (Tok (mktok TK_Symbol [] [98] (mkspan (LineCol 1 8) (LineCol 1 9))))]).
Proof. vm_compute. reflexivity. Qed.

(** tests/test_parse_cst.rs test_tilde *)
Example rust_112_test_tilde : (rmap (fun p => strip (fst p)) (parse_cst default_opts true NotScript [97;32;126;102;44;126;32;98])) = Ok (Op KInfix IOP_CodeParser_Comma [(SynErr ExpectedTilde [(Tok (mktok TK_Symbol [] [97] (mkspan (LineCol 1 1) (LineCol 1 2)))); (Tok (mktok TK_Whitespace [] [32] (mkspan (LineCol 1 2) (LineCol 1 3)))); (Tok (mktok TK_Tilde [] [126] (mkspan (LineCol 1 3) (LineCol 1 4)))); (Tok (mktok TK_Symbol [] [102] (mkspan (LineCol 1 4) (LineCol 1 5))))]); (Tok (mktok TK_Comma [] [44] (mkspan (LineCol 1 5) (LineCol 1 6)))); (SynErr ExpectedTilde [(Tok (mktok TK_Error_ExpectedOperand [] [] (mkspan (LineCol 1 6) (LineCol 1 6)))); (Tok (mktok TK_Tilde [] [126] (mkspan (LineCol 1 6) (LineCol 1 7)))); (Tok (mktok TK_Whitespace [] [32] (mkspan (LineCol 1 7) (LineCol 1 8)))); (Tok (mktok TK_Symbol [] [98] (mkspan (LineCol 1 8) (LineCol 1 9))))])]).
Proof. vm_compute. reflexivity. Qed.

(** tests/test_parse_cst.rs test_tilde *)
Example rust_113_test_tilde : (rmap (fun p => strip (fst p)) (parse_cst default_opts true NotScript [97;126;102;44;120;126;98])) = Ok (Op KInfix IOP_CodeParser_Comma [(SynErr ExpectedTilde [(Tok (mktok TK_Symbol [] [97] (mkspan (LineCol 1 1) (LineCol 1 2)))); (Tok (mktok TK_Tilde [] [126] (mkspan (LineCol 1 2) (LineCol 1 3)))); (Tok (mktok TK_Symbol [] [102] (mkspan (LineCol 1 3) (LineCol 1 4))))]); (Tok (mktok TK_Comma [] [44] (mkspan (LineCol 1 4) (LineCol 1 5)))); (SynErr ExpectedTilde [(Tok (mktok TK_Symbol [] [120] (mkspan (LineCol 1 5) (LineCol 1 6)))); (Tok (mktok TK_Tilde [] [126] (mkspan (LineCol 1 6) (LineCol 1 7)))); (Tok (mktok TK_Symbol [] [98] (mkspan (LineCol 1 7) (LineCol 1 8))))])]).
Proof. vm_compute. reflexivity. Qed.

(** tests/test_parse_cst.rs test_tilde *)
Example rust_114_test_tilde : (rmap (fun p => strip (fst p)) (parse_cst default_opts true NotScript [123;97;32;126;102;44;126;32;98;125])) = Ok (Op KGroup GOP_List [(Tok (mktok TK_OpenCurly [] [123] (mkspan (LineCol 1 1) (LineCol 1 2)))); (Op KInfix IOP_CodeParser_Comma [(SynErr ExpectedTilde [(Tok (mktok TK_Symbol [] [97] (mkspan (LineCol 1 2) (LineCol 1 3)))); (Tok (mktok TK_Whitespace [] [32] (mkspan (LineCol 1 3) (LineCol 1 4)))); (Tok (mktok TK_Tilde [] [126] (mkspan (LineCol 1 4) (LineCol 1 5)))); (Tok (mktok TK_Symbol [] [102] (mkspan (LineCol 1 5) (LineCol 1 6))))]); (Tok (mktok TK_Comma [] [44] (mkspan (LineCol 1 6) (LineCol 1 7)))); (SynErr ExpectedTilde [(Tok (mktok TK_Error_ExpectedOperand [] [] (mkspan (LineCol 1 7) (LineCol 1 7)))); (Tok (mktok TK_Tilde [] [126] (mkspan (LineCol 1 7) (LineCol 1 8)))); (Tok (mktok TK_Whitespace [] [32] (mkspan (LineCol 1 8) (LineCol 1 9)))); (Tok (mktok TK_Symbol [] [98] (mkspan (LineCol 1 9) (LineCol 1 10))))])]); (Tok (mktok TK_CloseCurly [] [125] (mkspan (LineCol 1 10) (LineCol 1 11))))]).
Proof. vm_compute. reflexivity. Qed.

(** tests/test_parse_cst.rs test_tilde *)
Example rust_115_test_tilde : (rmap (fun p => strip (fst p)) (parse_cst default_opts true NotScript [97;126;102;64;120;126;98])) = Ok (Op KTernary TOP_CodeParser_TernaryTilde [(Tok (mktok TK_Symbol [] [97] (mkspan (LineCol 1 1) (LineCol 1 2)))); (Tok (mktok TK_Tilde [] [126] (mkspan (LineCol 1 2) (LineCol 1 3)))); (Op KBinary BOP_CodeParser_BinaryAt [(Tok (mktok TK_Symbol [] [102] (mkspan (LineCol 1 3) (LineCol 1 4)))); (Tok (mktok TK_At [] [64] (mkspan (LineCol 1 4) (LineCol 1 5)))); (Tok (mktok TK_Symbol [] [120] (mkspan (LineCol 1 5) (LineCol 1 6))))]); (Tok (mktok TK_Tilde [] [126] (mkspan (LineCol 1 6) (LineCol 1 7)))); (Tok (mktok TK_Symbol [] [98] (mkspan (LineCol 1 7) (LineCol 1 8))))]).
Proof. vm_compute. reflexivity. Qed.

(** tests/test_parse_cst.rs test_tilde *)
Example rust_116_test_tilde : (rmap (fun p => strip (fst p)) (parse_cst default_opts true NotScript [97;126;102;47;42;103;126;98])) = Ok (Op KTernary TOP_CodeParser_TernaryTilde [(Tok (mktok TK_Symbol [] [97] (mkspan (LineCol 1 1) (LineCol 1 2)))); (Tok (mktok TK_Tilde [] [126] (mkspan (LineCol 1 2) (LineCol 1 3)))); (Op KInfix IOP_RightComposition [(Tok (mktok TK_Symbol [] [102] (mkspan (LineCol 1 3) (LineCol 1 4)))); (Tok (mktok TK_SlashStar [] [47;42] (mkspan (LineCol 1 4) (LineCol 1 6)))); (Tok (mktok TK_Symbol [] [103] (mkspan (LineCol 1 6) (LineCol 1 7))))]); (Tok (mktok TK_Tilde [] [126] (mkspan (LineCol 1 7) (LineCol 1 8)))); (Tok (mktok TK_Symbol [] [98] (mkspan (LineCol 1 8) (LineCol 1 9))))]).
Proof. vm_compute. reflexivity. Qed.

(** tests/test_parse_cst.rs test_tilde *)
Example rust_117_test_tilde : (rmap (fun p => strip (fst p)) (parse_cst default_opts true NotScript [97;126;102;64;42;103;126;98])) = Ok (Op KTernary TOP_CodeParser_TernaryTilde [(Tok (mktok TK_Symbol [] [97] (mkspan (LineCol 1 1) (LineCol 1 2)))); (Tok (mktok TK_Tilde [] [126] (mkspan (LineCol 1 2) (LineCol 1 3)))); (Op KInfix IOP_Composition [(Tok (mktok TK_Symbol [] [102] (mkspan (LineCol 1 3) (LineCol 1 4)))); (Tok (mktok TK_AtStar [] [64;42] (mkspan (LineCol 1 4) (LineCol 1 6)))); (Tok (mktok TK_Symbol [] [103] (mkspan (LineCol 1 6) (LineCol 1 7))))]); (Tok (mktok TK_Tilde [] [126] (mkspan (LineCol 1 7) (LineCol 1 8)))); (Tok (mktok TK_Symbol [] [98] (mkspan (LineCol 1 8) (LineCol 1 9))))]).
Proof. vm_compute. reflexivity. Qed.

(** tests/test_parse_cst.rs test_tilde *)
Example rust_118_test_tilde : (rmap (fun p => strip (fst p)) (parse_cst default_opts true NotScript [97;126;43;43;102;126;98])) = Ok (Op KTernary TOP_CodeParser_TernaryTilde [(Tok (mktok TK_Symbol [] [97] (mkspan (LineCol 1 1) (LineCol 1 2)))); (Tok (mktok TK_Tilde [] [126] (mkspan (LineCol 1 2) (LineCol 1 3)))); (Op KPrefix PREOP_PreIncrement [(Tok (mktok TK_PlusPlus [] [43;43] (mkspan (LineCol 1 3) (LineCol 1 5)))); (Tok (mktok TK_Symbol [] [102] (mkspan (LineCol 1 5) (LineCol 1 6))))]); (Tok (mktok TK_Tilde [] [126] (mkspan (LineCol 1 6) (LineCol 1 7)))); (Tok (mktok TK_Symbol [] [98] (mkspan (LineCol 1 7) (LineCol 1 8))))]).
Proof. vm_compute. reflexivity. Qed.

(** tests/test_parse_cst.rs test_tilde *)
Example rust_119_test_tilde : (rmap (fun p => strip (fst p)) (parse_cst default_opts true NotScript [97;126;102;45;45;126;98])) = Ok (Op KTernary TOP_CodeParser_TernaryTilde [(Tok (mktok TK_Symbol [] [97] (mkspan (LineCol 1 1) (LineCol 1 2)))); (Tok (mktok TK_Tilde [] [126] (mkspan (LineCol 1 2) (LineCol 1 3)))); (Op KPostfix POSTOP_Decrement [(Tok (mktok TK_Symbol [] [102] (mkspan (LineCol 1 3) (LineCol 1 4)))); (Tok (mktok TK_MinusMinus [] [45;45] (mkspan (LineCol 1 4) (LineCol 1 6))))]); (Tok (mktok TK_Tilde [] [126] (mkspan (LineCol 1 6) (LineCol 1 7)))); (Tok (mktok TK_Symbol [] [98] (mkspan (LineCol 1 7) (LineCol 1 8))))]).
Proof. vm_compute. reflexivity. Qed.

(** tests/test_parse_cst.rs test_tilde *)
Example rust_120_test_tilde : (rmap (fun p => strip (fst p)) (parse_cst default_opts true NotScript [97;126;102;91;120;93;126;98])) = Ok (Op KTernary TOP_CodeParser_TernaryTilde [(Tok (mktok TK_Symbol [] [97] (mkspan (LineCol 1 1) (LineCol 1 2)))); (Tok (mktok TK_Tilde [] [126] (mkspan (LineCol 1 2) (LineCol 1 3)))); (Call (Concrete [(Tok (mktok TK_Symbol [] [102] (mkspan (LineCol 1 3) (LineCol 1 4))))]) false CALLOP_CodeParser_GroupSquare [(Tok (mktok TK_OpenSquare [] [91] (mkspan (LineCol 1 4) (LineCol 1 5)))); (Tok (mktok TK_Symbol [] [120] (mkspan (LineCol 1 5) (LineCol 1 6)))); (Tok (mktok TK_CloseSquare [] [93] (mkspan (LineCol 1 6) (LineCol 1 7))))]); (Tok (mktok TK_Tilde [] [126] (mkspan (LineCol 1 7) (LineCol 1 8)))); (Tok (mktok TK_Symbol [] [98] (mkspan (LineCol 1 8) (LineCol 1 9))))]).
Proof. vm_compute. reflexivity. Qed.

(** tests/test_parse_cst.rs test_tilde *)
Example rust_121_test_tilde : (rmap (fun p => strip (fst p)) (parse_cst default_opts true NotScript [97;126;102;63;104;126;98])) = Ok (Op KTernary TOP_CodeParser_TernaryTilde [(Tok (mktok TK_Symbol [] [97] (mkspan (LineCol 1 1) (LineCol 1 2)))); (Tok (mktok TK_Tilde [] [126] (mkspan (LineCol 1 2) (LineCol 1 3)))); (Op KBinary BOP_PatternTest [(Tok (mktok TK_Symbol [] [102] (mkspan (LineCol 1 3) (LineCol 1 4)))); (Tok (mktok TK_Question [] [63] (mkspan (LineCol 1 4) (LineCol 1 5)))); (Tok (mktok TK_Symbol [] [104] (mkspan (LineCol 1 5) (LineCol 1 6))))]); (Tok (mktok TK_Tilde [] [126] (mkspan (LineCol 1 6) (LineCol 1 7)))); (Tok (mktok TK_Symbol [] [98] (mkspan (LineCol 1 7) (LineCol 1 8))))]).
Proof. vm_compute. reflexivity. Qed.

(** tests/test_parse_cst.rs test_tilde *)
Example rust_122_test_tilde : (rmap (fun p => strip (fst p)) (parse_cst default_opts true NotScript [97;126;60;60;103;64;120;126;98])) = Ok (Op KTernary TOP_CodeParser_TernaryTilde [(Tok (mktok TK_Symbol [] [97] (mkspan (LineCol 1 1) (LineCol 1 2)))); (Tok (mktok TK_Tilde [] [126] (mkspan (LineCol 1 2) (LineCol 1 3)))); (Op KBinary BOP_CodeParser_BinaryAt [(Op KPrefix PREOP_Get [(Tok (mktok TK_LessLess [] [60;60] (mkspan (LineCol 1 3) (LineCol 1 5)))); (Tok (mktok TK_String [] [103] (mkspan (LineCol 1 5) (LineCol 1 6))))]); (Tok (mktok TK_At [] [64] (mkspan (LineCol 1 6) (LineCol 1 7)))); (Tok (mktok TK_Symbol [] [120] (mkspan (LineCol 1 7) (LineCol 1 8))))]); (Tok (mktok TK_Tilde [] [126] (mkspan (LineCol 1 8) (LineCol 1 9)))); (Tok (mktok TK_Symbol [] [98] (mkspan (LineCol 1 9) (LineCol 1 10))))]).
Proof. vm_compute. reflexivity. Qed.

(** tests/test_parse_cst.rs test_tilde *)
Example rust_123_test_tilde : (rmap (fun p => strip (fst p)) (parse_cst default_opts true NotScript [97;126;60;60;103;32;64;120;126;98])) = Ok (Op KTernary TOP_CodeParser_TernaryTilde [(Tok (mktok TK_Symbol [] [97] (mkspan (LineCol 1 1) (LineCol 1 2)))); (Tok (mktok TK_Tilde [] [126] (mkspan (LineCol 1 2) (LineCol 1 3)))); (Op KBinary BOP_CodeParser_BinaryAt [(Op KPrefix PREOP_Get [(Tok (mktok TK_LessLess [] [60;60] (mkspan (LineCol 1 3) (LineCol 1 5)))); (Tok (mktok TK_String [] [103] (mkspan (LineCol 1 5) (LineCol 1 6))))]); (Tok (mktok TK_Whitespace [] [32] (mkspan (LineCol 1 6) (LineCol 1 7)))); (Tok (mktok TK_At [] [64] (mkspan (LineCol 1 7) (LineCol 1 8)))); (Tok (mktok TK_Symbol [] [120] (mkspan (LineCol 1 8) (LineCol 1 9))))]); (Tok (mktok TK_Tilde [] [126] (mkspan (LineCol 1 9) (LineCol 1 10)))); (Tok (mktok TK_Symbol [] [98] (mkspan (LineCol 1 10) (LineCol 1 11))))]).
Proof. vm_compute. reflexivity. Qed.

(** tests/test_parse_cst.rs test_tilde *)
Example rust_124_test_tilde : (rmap (fun p => strip (fst p)) (parse_cst default_opts true NotScript [97;126;102;58;58;120;126;98])) = Ok (Op KTernary TOP_CodeParser_TernaryTilde [(Tok (mktok TK_Symbol [] [97] (mkspan (LineCol 1 1) (LineCol 1 2)))); (Tok (mktok TK_Tilde [] [126] (mkspan (LineCol 1 2) (LineCol 1 3)))); (Op KInfix IOP_MessageName [(Tok (mktok TK_Symbol [] [102] (mkspan (LineCol 1 3) (LineCol 1 4)))); (Tok (mktok TK_ColonColon [] [58;58] (mkspan (LineCol 1 4) (LineCol 1 6)))); (Tok (mktok TK_String [] [120] (mkspan (LineCol 1 6) (LineCol 1 7))))]); (Tok (mktok TK_Tilde [] [126] (mkspan (LineCol 1 7) (LineCol 1 8)))); (Tok (mktok TK_Symbol [] [98] (mkspan (LineCol 1 8) (LineCol 1 9))))]).
Proof. vm_compute. reflexivity. Qed.

(** tests/test_parse_cst.rs test_tilde *)
Example rust_125_test_tilde : (rmap (fun p => strip (fst p)) (parse_cst default_opts true NotScript [97;126;102;95;120;126;98])) = Ok (Op KTernary TOP_CodeParser_TernaryTilde [(Tok (mktok TK_Symbol [] [97] (mkspan (LineCol 1 1) (LineCol 1 2)))); (Tok (mktok TK_Tilde [] [126] (mkspan (LineCol 1 2) (LineCol 1 3)))); (Op KCompound COP_CodeParser_PatternBlank [(Tok (mktok TK_Symbol [] [102] (mkspan (LineCol 1 3) (LineCol 1 4)))); (Op KCompound COP_Blank [(Tok (mktok TK_Under [] [95] (mkspan (LineCol 1 4) (LineCol 1 5)))); (Tok (mktok TK_Symbol [] [120] (mkspan (LineCol 1 5) (LineCol 1 6))))])]); (Tok (mktok TK_Tilde [] [126] (mkspan (LineCol 1 6) (LineCol 1 7)))); (Tok (mktok TK_Symbol [] [98] (mkspan (LineCol 1 7) (LineCol 1 8))))]).
Proof. vm_compute. reflexivity. Qed.

(** tests/test_parse_cst.rs test_tilde *)
Example rust_126_test_tilde : (rmap (fun p => strip (fst p)) (parse_cst default_opts true NotScript [97;59;59;126;98;126;99])) = Ok (Op KTernary TOP_CodeParser_TernaryTilde [(Op KBinary BOP_Span [(Tok (mktok TK_Symbol [] [97] (mkspan (LineCol 1 1) (LineCol 1 2)))); (Tok (mktok TK_SemiSemi [] [59;59] (mkspan (LineCol 1 2) (LineCol 1 4)))); (Tok (mktok TK_Fake_ImplicitAll [] [] (mkspan (LineCol 1 4) (LineCol 1 4))))]); (Tok (mktok TK_Tilde [] [126] (mkspan (LineCol 1 4) (LineCol 1 5)))); (Tok (mktok TK_Symbol [] [98] (mkspan (LineCol 1 5) (LineCol 1 6)))); (Tok (mktok TK_Tilde [] [126] (mkspan (LineCol 1 6) (LineCol 1 7)))); (Tok (mktok TK_Symbol [] [99] (mkspan (LineCol 1 7) (LineCol 1 8))))]).
Proof. vm_compute. reflexivity. Qed.

(** tests/test_parse_cst.rs test_tilde *)
Example rust_127_test_tilde : (rmap (fun p => strip (fst p)) (parse_cst default_opts true NotScript [97;59;59;98;126;99;126;100])) = Ok (Op KBinary BOP_Span [(Tok (mktok TK_Symbol [] [97] (mkspan (LineCol 1 1) (LineCol 1 2)))); (Tok (mktok TK_SemiSemi [] [59;59] (mkspan (LineCol 1 2) (LineCol 1 4)))); (Op KTernary TOP_CodeParser_TernaryTilde [(Tok (mktok TK_Symbol [] [98] (mkspan (LineCol 1 4) (LineCol 1 5)))); (Tok (mktok TK_Tilde [] [126] (mkspan (LineCol 1 5) (LineCol 1 6)))); (Tok (mktok TK_Symbol [] [99] (mkspan (LineCol 1 6) (LineCol 1 7)))); (Tok (mktok TK_Tilde [] [126] (mkspan (LineCol 1 7) (LineCol 1 8)))); (Tok (mktok TK_Symbol [] [100] (mkspan (LineCol 1 8) (LineCol 1 9))))])]).
Proof. vm_compute. reflexivity. Qed.

(** tests/test_parse_cst.rs test_tilde *)
Example rust_128_test_tilde : (rmap (fun p => strip (fst p)) (parse_cst default_opts true NotScript [97;59;59;98;59;59;126;100;126;101])) = Ok (Op KInfix IOP_Times [(Op KBinary BOP_Span [(Tok (mktok TK_Symbol [] [97] (mkspan (LineCol 1 1) (LineCol 1 2)))); (Tok (mktok TK_SemiSemi [] [59;59] (mkspan (LineCol 1 2) (LineCol 1 4)))); (Tok (mktok TK_Symbol [] [98] (mkspan (LineCol 1 4) (LineCol 1 5))))]); (Tok (mktok TK_Fake_ImplicitTimes [] [] (mkspan (LineCol 1 5) (LineCol 1 5)))); (Op KTernary TOP_CodeParser_TernaryTilde [(Op KBinary BOP_Span [(Tok (mktok TK_Fake_ImplicitOne [] [] (mkspan (LineCol 1 5) (LineCol 1 5)))); (Tok (mktok TK_SemiSemi [] [59;59] (mkspan (LineCol 1 5) (LineCol 1 7)))); (Tok (mktok TK_Fake_ImplicitAll [] [] (mkspan (LineCol 1 7) (LineCol 1 7))))]); (Tok (mktok TK_Tilde [] [126] (mkspan (LineCol 1 7) (LineCol 1 8)))); (Tok (mktok TK_Symbol [] [100] (mkspan (LineCol 1 8) (LineCol 1 9)))); (Tok (mktok TK_Tilde [] [126] (mkspan (LineCol 1 9) (LineCol 1 10)))); (Tok (mktok TK_Symbol [] [101] (mkspan (LineCol 1 10) (LineCol 1 11))))])]).
Proof. vm_compute. reflexivity. Qed.

(** tests/test_parse_cst.rs test_tilde *)
Example rust_129_test_tilde : (rmap (fun p => strip (fst p)) (parse_cst default_opts true NotScript [97;59;59;98;59;59;99;126;100;126;101])) = Ok (Op KTernary TOP_Span [(Tok (mktok TK_Symbol [] [97] (mkspan (LineCol 1 1) (LineCol 1 2)))); (Tok (mktok TK_SemiSemi [] [59;59] (mkspan (LineCol 1 2) (LineCol 1 4)))); (Tok (mktok TK_Symbol [] [98] (mkspan (LineCol 1 4) (LineCol 1 5)))); (Tok (mktok TK_SemiSemi [] [59;59] (mkspan (LineCol 1 5) (LineCol 1 7)))); (Op KTernary TOP_CodeParser_TernaryTilde [(Tok (mktok TK_Symbol [] [99] (mkspan (LineCol 1 7) (LineCol 1 8)))); (Tok (mktok TK_Tilde [] [126] (mkspan (LineCol 1 8) (LineCol 1 9)))); (Tok (mktok TK_Symbol [] [100] (mkspan (LineCol 1 9) (LineCol 1 10)))); (Tok (mktok TK_Tilde [] [126] (mkspan (LineCol 1 10) (LineCol 1 11)))); (Tok (mktok TK_Symbol [] [101] (mkspan (LineCol 1 11) (LineCol 1 12))))])]).
Proof. vm_compute. reflexivity. Qed.

(** tests/test_parse_cst.rs test_tilde *)
Example rust_130_test_tilde : (rmap (fun p => strip (fst p)) (parse_cst default_opts true NotScript [97;33;126;98;126;99])) = Ok (Op KTernary TOP_CodeParser_TernaryTilde [(Op KPostfix POSTOP_Factorial [(Tok (mktok TK_Symbol [] [97] (mkspan (LineCol 1 1) (LineCol 1 2)))); (Tok (mktok TK_Bang [] [33] (mkspan (LineCol 1 2) (LineCol 1 3))))]); (Tok (mktok TK_Tilde [] [126] (mkspan (LineCol 1 3) (LineCol 1 4)))); (Tok (mktok TK_Symbol [] [98] (mkspan (LineCol 1 4) (LineCol 1 5)))); (Tok (mktok TK_Tilde [] [126] (mkspan (LineCol 1 5) (LineCol 1 6)))); (Tok (mktok TK_Symbol [] [99] (mkspan (LineCol 1 6) (LineCol 1 7))))]).
Proof. vm_compute. reflexivity. Qed.

(** tests/test_parse_cst.rs test_regressions *)
Example rust_131_test_regressions : (rmap (fun p => strip (fst p)) (parse_cst default_opts true NotScript [97;61;46])) = Ok (Op KBinary BOP_Unset [(Tok (mktok TK_Symbol [] [97] (mkspan (LineCol 1 1) (LineCol 1 2)))); (Tok (mktok TK_Equal [] [61] (mkspan (LineCol 1 2) (LineCol 1 3)))); (Tok (mktok TK_Dot [] [46] (mkspan (LineCol 1 3) (LineCol 1 4))))]).
Proof. vm_compute. reflexivity. Qed.

(** tests/test_parse_cst.rs test_regressions *)
Example rust_132_test_regressions : (rmap (fun p => strip (fst p)) (parse_cst default_opts true NotScript [123;32;40;32;97;32;125])) = Ok (Op KGroup GOP_List [(Tok (mktok TK_OpenCurly [] [123] (mkspan (LineCol 1 1) (LineCol 1 2)))); (Tok (mktok TK_Whitespace [] [32] (mkspan (LineCol 1 2) (LineCol 1 3)))); (Op KGroupMissingCloser GOP_CodeParser_GroupParen [(Tok (mktok TK_OpenParen [] [40] (mkspan (LineCol 1 3) (LineCol 1 4)))); (Tok (mktok TK_Whitespace [] [32] (mkspan (LineCol 1 4) (LineCol 1 5)))); (Tok (mktok TK_Symbol [] [97] (mkspan (LineCol 1 5) (LineCol 1 6))))]); (Tok (mktok TK_Whitespace [] [32] (mkspan (LineCol 1 6) (LineCol 1 7)))); (Tok (mktok TK_CloseCurly [] [125] (mkspan (LineCol 1 7) (LineCol 1 8))))]).
Proof. vm_compute. reflexivity. Qed.

(** tests/test_parse_cst.rs test_regressions *)
Example rust_133_test_regressions : (rmap (fun p => strip (fst p)) (parse_cst default_opts true NotScript [97;62;62;98;92;49;99])) = Ok (Op KBinary BOP_Put [(Tok (mktok TK_Symbol [] [97] (mkspan (LineCol 1 1) (LineCol 1 2)))); (Tok (mktok TK_GreaterGreater [] [62;62] (mkspan (LineCol 1 2) (LineCol 1 4)))); (Tok (mktok TK_String [] [98;92;49;99] (mkspan (LineCol 1 4) (LineCol 1 8))))]).
Proof. vm_compute. reflexivity. Qed.

(** tests/test_parse_cst.rs test_regressions *)
Example rust_134_test_regressions : (rmap (fun p => strip (fst p)) (parse_cst default_opts true NotScript [102;91;97;32;58;32;98;93])) = Ok (Call (Concrete [(Tok (mktok TK_Symbol [] [102] (mkspan (LineCol 1 1) (LineCol 1 2))))]) false CALLOP_CodeParser_GroupSquare [(Tok (mktok TK_OpenSquare [] [91] (mkspan (LineCol 1 2) (LineCol 1 3)))); (Op KBinary BOP_Pattern [(Tok (mktok TK_Symbol [] [97] (mkspan (LineCol 1 3) (LineCol 1 4)))); (Tok (mktok TK_Whitespace [] [32] (mkspan (LineCol 1 4) (LineCol 1 5)))); (Tok (mktok TK_Colon [] [58] (mkspan (LineCol 1 5) (LineCol 1 6)))); (Tok (mktok TK_Whitespace [] [32] (mkspan (LineCol 1 6) (LineCol 1 7)))); (Tok (mktok TK_Symbol [] [98] (mkspan (LineCol 1 7) (LineCol 1 8))))]); (Tok (mktok TK_CloseSquare [] [93] (mkspan (LineCol 1 8) (LineCol 1 9))))]).
Proof. vm_compute. reflexivity. Qed.

(** tests/test_abstract.rs test_negate_infix_times *)
Example rust_135_test_negate_infix_times : (rmap (fun p => strip (fst p)) (parse_cst default_opts true NotScript [97;45;98;42;99])) = Ok (Op KInfix IOP_Plus [(Tok (mktok TK_Symbol [] [97] (mkspan (LineCol 1 1) (LineCol 1 2)))); (Tok (mktok TK_Minus [] [45] (mkspan (LineCol 1 2) (LineCol 1 3)))); (Op KInfix IOP_Times [(Tok (mktok TK_Symbol [] [98] (mkspan (LineCol 1 3) (LineCol 1 4)))); (Tok (mktok TK_Star [] [42] (mkspan (LineCol 1 4) (LineCol 1 5)))); (Tok (mktok TK_Symbol [] [99] (mkspan (LineCol 1 5) (LineCol 1 6))))])]).
Proof. vm_compute. reflexivity. Qed.

(** tests/test_abstract.rs test_negate_infix_times *)
Example rust_136_test_negate_infix_times_src : get_source (Op KInfix IOP_Times [(Tok (mktok TK_Symbol [] [98] (mkspan (LineCol 1 3) (LineCol 1 4)))); (Tok (mktok TK_Star [] [42] (mkspan (LineCol 1 4) (LineCol 1 5)))); (Tok (mktok TK_Symbol [] [99] (mkspan (LineCol 1 5) (LineCol 1 6))))]) = Ok (mkspan (LineCol 1 3) (LineCol 1 6)).
Proof. vm_compute. reflexivity. Qed.

(** tests/test_abstract.rs test_negate_infix_times *)
Example rust_137_test_negate_infix_times_src : get_source (Op KInfix IOP_Plus [(Tok (mktok TK_Symbol [] [97] (mkspan (LineCol 1 1) (LineCol 1 2)))); (Tok (mktok TK_Minus [] [45] (mkspan (LineCol 1 2) (LineCol 1 3)))); (Op KInfix IOP_Times [(Tok (mktok TK_Symbol [] [98] (mkspan (LineCol 1 3) (LineCol 1 4)))); (Tok (mktok TK_Star [] [42] (mkspan (LineCol 1 4) (LineCol 1 5)))); (Tok (mktok TK_Symbol [] [99] (mkspan (LineCol 1 5) (LineCol 1 6))))])]) = Ok (mkspan (LineCol 1 1) (LineCol 1 6)).
Proof. vm_compute. reflexivity. Qed.

(** tests/test_abstract.rs test_negate_infix_times *)
Example rust_138_test_negate_infix_times : (rbind (agg1 (rmap (fun p => strip (fst p)) (parse_cst default_opts true NotScript [97;45;98;42;99]))) (abstract_cst (mk_aopts true true false false quoted))) = Ok (ACall (ALeaf TK_Symbol [80;108;117;115] (mk_ameta Unknown [])) [(ALeaf TK_Symbol [97] (mk_ameta (Known (mkspan (LineCol 1 1) (LineCol 1 2))) [])); (ACall (ALeaf TK_Symbol [84;105;109;101;115] (mk_ameta Unknown [])) [(ALeaf TK_Integer [45;49] (mk_ameta Unknown [])); (ALeaf TK_Symbol [98] (mk_ameta (Known (mkspan (LineCol 1 3) (LineCol 1 4))) [])); (ALeaf TK_Symbol [99] (mk_ameta (Known (mkspan (LineCol 1 5) (LineCol 1 6))) []))] (mk_ameta (Known (mkspan (LineCol 1 2) (LineCol 1 6))) []))] (mk_ameta (Known (mkspan (LineCol 1 1) (LineCol 1 6))) [])).
Proof. vm_compute. reflexivity. Qed.

(** tests/test_abstract.rs test_negate_infix_times *)
Example rust_139_test_negate_infix_times : (rbind (agg1 (rmap (fun p => strip (fst p)) (parse_cst default_opts true NotScript [97;45;98;42;99]))) (abstract_cst (mk_aopts true true true false quoted))) = Ok (ACall (ALeaf TK_Symbol [80;108;117;115] (mk_ameta Unknown [])) [(ALeaf TK_Symbol [97] (mk_ameta (Known (mkspan (LineCol 1 1) (LineCol 1 2))) [])); (ACall (ALeaf TK_Symbol [84;105;109;101;115] (mk_ameta Unknown [])) [(ALeaf TK_Integer [45;49] (mk_ameta Unknown [])); (ALeaf TK_Symbol [98] (mk_ameta (Known (mkspan (LineCol 1 3) (LineCol 1 4))) [])); (ALeaf TK_Symbol [99] (mk_ameta (Known (mkspan (LineCol 1 5) (LineCol 1 6))) []))] (mk_ameta (Known (mkspan (LineCol 1 2) (LineCol 1 6))) []))] (mk_ameta (Known (mkspan (LineCol 1 1) (LineCol 1 6))) [])).
Proof. vm_compute. reflexivity. Qed.

(** tests/test_abstract.rs test_negate_infix_times *)
Example rust_140_test_negate_infix_times : (rmap (fun p => strip (fst p)) (parse_cst default_opts true NotScript [97;45;98;47;99])) = Ok (Op KInfix IOP_Plus [(Tok (mktok TK_Symbol [] [97] (mkspan (LineCol 1 1) (LineCol 1 2)))); (Tok (mktok TK_Minus [] [45] (mkspan (LineCol 1 2) (LineCol 1 3)))); (Op KBinary BOP_Divide [(Tok (mktok TK_Symbol [] [98] (mkspan (LineCol 1 3) (LineCol 1 4)))); (Tok (mktok TK_Slash [] [47] (mkspan (LineCol 1 4) (LineCol 1 5)))); (Tok (mktok TK_Symbol [] [99] (mkspan (LineCol 1 5) (LineCol 1 6))))])]).
Proof. vm_compute. reflexivity. Qed.

(** tests/test_abstract.rs test_negate_infix_times *)
Example rust_141_test_negate_infix_times_src : get_source (Op KBinary BOP_Divide [(Tok (mktok TK_Symbol [] [98] (mkspan (LineCol 1 3) (LineCol 1 4)))); (Tok (mktok TK_Slash [] [47] (mkspan (LineCol 1 4) (LineCol 1 5)))); (Tok (mktok TK_Symbol [] [99] (mkspan (LineCol 1 5) (LineCol 1 6))))]) = Ok (mkspan (LineCol 1 3) (LineCol 1 6)).
Proof. vm_compute. reflexivity. Qed.

(** tests/test_abstract.rs test_negate_infix_times *)
Example rust_142_test_negate_infix_times_src : get_source (Op KInfix IOP_Plus [(Tok (mktok TK_Symbol [] [97] (mkspan (LineCol 1 1) (LineCol 1 2)))); (Tok (mktok TK_Minus [] [45] (mkspan (LineCol 1 2) (LineCol 1 3)))); (Op KBinary BOP_Divide [(Tok (mktok TK_Symbol [] [98] (mkspan (LineCol 1 3) (LineCol 1 4)))); (Tok (mktok TK_Slash [] [47] (mkspan (LineCol 1 4) (LineCol 1 5)))); (Tok (mktok TK_Symbol [] [99] (mkspan (LineCol 1 5) (LineCol 1 6))))])]) = Ok (mkspan (LineCol 1 1) (LineCol 1 6)).
Proof. vm_compute. reflexivity. Qed.

(** tests/test_abstract.rs test_negate_infix_times *)
Example rust_143_test_negate_infix_times : (rbind (agg1 (rmap (fun p => strip (fst p)) (parse_cst default_opts true NotScript [97;45;98;47;99]))) (abstract_cst (mk_aopts true true false false quoted))) = Ok (ACall (ALeaf TK_Symbol [80;108;117;115] (mk_ameta Unknown [])) [(ALeaf TK_Symbol [97] (mk_ameta (Known (mkspan (LineCol 1 1) (LineCol 1 2))) [])); (ACall (ALeaf TK_Symbol [84;105;109;101;115] (mk_ameta Unknown [])) [(ALeaf TK_Integer [45;49] (mk_ameta Unknown [])); (ACall (ALeaf TK_Symbol [84;105;109;101;115] (mk_ameta Unknown [])) [(ALeaf TK_Symbol [98] (mk_ameta (Known (mkspan (LineCol 1 3) (LineCol 1 4))) [])); (ACall (ALeaf TK_Symbol [80;111;119;101;114] (mk_ameta Unknown [])) [(ALeaf TK_Symbol [99] (mk_ameta (Known (mkspan (LineCol 1 5) (LineCol 1 6))) [])); (ALeaf TK_Integer [45;49] (mk_ameta Unknown []))] (mk_ameta (Known (mkspan (LineCol 1 3) (LineCol 1 6))) []))] (mk_ameta (Known (mkspan (LineCol 1 3) (LineCol 1 6))) []))] (mk_ameta (Known (mkspan (LineCol 1 2) (LineCol 1 6))) []))] (mk_ameta (Known (mkspan (LineCol 1 1) (LineCol 1 6))) [])).
Proof. vm_compute. reflexivity. Qed.

(** tests/test_abstract.rs test_negate_infix_times *)
Example rust_144_test_negate_infix_times : (rbind (agg1 (rmap (fun p => strip (fst p)) (parse_cst default_opts true NotScript [97;45;98;47;99]))) (abstract_cst (mk_aopts true true true false quoted))) = Ok (ACall (ALeaf TK_Symbol [80;108;117;115] (mk_ameta Unknown [])) [(ALeaf TK_Symbol [97] (mk_ameta (Known (mkspan (LineCol 1 1) (LineCol 1 2))) [])); (ACall (ALeaf TK_Symbol [84;105;109;101;115] (mk_ameta Unknown [])) [(ALeaf TK_Integer [45;49] (mk_ameta Unknown [])); (ALeaf TK_Symbol [98] (mk_ameta (Known (mkspan (LineCol 1 3) (LineCol 1 4))) [])); (ACall (ALeaf TK_Symbol [80;111;119;101;114] (mk_ameta Unknown [])) [(ALeaf TK_Symbol [99] (mk_ameta (Known (mkspan (LineCol 1 5) (LineCol 1 6))) [])); (ALeaf TK_Integer [45;49] (mk_ameta Unknown []))] (mk_ameta (Known (mkspan (LineCol 1 2) (LineCol 1 6))) []))] (mk_ameta (Known (mkspan (LineCol 1 2) (LineCol 1 6))) []))] (mk_ameta (Known (mkspan (LineCol 1 1) (LineCol 1 6))) [])).
Proof. vm_compute. reflexivity. Qed.

(** tests/test_abstract.rs test_abstract_flatten_times_quirk *)
Example rust_145_test_abstract_flatten_times_quirk : (rmap (fun p => strip (fst p)) (parse_cst default_opts true NotScript [45;97;32;42;32;98;32;47;32;99;32;100;32;92;91;73;110;118;105;115;105;98;108;101;84;105;109;101;115;93;32;101;32;92;91;84;105;109;101;115;93;32;102])) = Ok (Op KInfix IOP_Times [(Op KPrefix PREOP_Minus [(Tok (mktok TK_Minus [] [45] (mkspan (LineCol 1 1) (LineCol 1 2)))); (Tok (mktok TK_Symbol [] [97] (mkspan (LineCol 1 2) (LineCol 1 3))))]); (Tok (mktok TK_Whitespace [] [32] (mkspan (LineCol 1 3) (LineCol 1 4)))); (Tok (mktok TK_Star [] [42] (mkspan (LineCol 1 4) (LineCol 1 5)))); (Tok (mktok TK_Whitespace [] [32] (mkspan (LineCol 1 5) (LineCol 1 6)))); (Op KBinary BOP_Divide [(Tok (mktok TK_Symbol [] [98] (mkspan (LineCol 1 6) (LineCol 1 7)))); (Tok (mktok TK_Whitespace [] [32] (mkspan (LineCol 1 7) (LineCol 1 8)))); (Tok (mktok TK_Slash [] [47] (mkspan (LineCol 1 8) (LineCol 1 9)))); (Tok (mktok TK_Whitespace [] [32] (mkspan (LineCol 1 9) (LineCol 1 10)))); (Tok (mktok TK_Symbol [] [99] (mkspan (LineCol 1 10) (LineCol 1 11))))]); (Tok (mktok TK_Whitespace [] [32] (mkspan (LineCol 1 11) (LineCol 1 12)))); (Tok (mktok TK_Fake_ImplicitTimes [] [] (mkspan (LineCol 1 12) (LineCol 1 12)))); (Tok (mktok TK_Symbol [] [100] (mkspan (LineCol 1 12) (LineCol 1 13)))); (Tok (mktok TK_Whitespace [] [32] (mkspan (LineCol 1 13) (LineCol 1 14)))); (Tok (mktok TK_LongName_InvisibleTimes [] [92;91;73;110;118;105;115;105;98;108;101;84;105;109;101;115;93] (mkspan (LineCol 1 14) (LineCol 1 31)))); (Tok (mktok TK_Whitespace [] [32] (mkspan (LineCol 1 31) (LineCol 1 32)))); (Tok (mktok TK_Symbol [] [101] (mkspan (LineCol 1 32) (LineCol 1 33)))); (Tok (mktok TK_Whitespace [] [32] (mkspan (LineCol 1 33) (LineCol 1 34)))); (Tok (mktok TK_LongName_Times [] [92;91;84;105;109;101;115;93] (mkspan (LineCol 1 34) (LineCol 1 42)))); (Tok (mktok TK_Whitespace [] [32] (mkspan (LineCol 1 42) (LineCol 1 43)))); (Tok (mktok TK_Symbol [] [102] (mkspan (LineCol 1 43) (LineCol 1 44))))]).
Proof. vm_compute. reflexivity. Qed.

(** tests/test_abstract.rs test_abstract_flatten_times_quirk *)
Example rust_146_test_abstract_flatten_times_quirk_src : get_source (Op KPrefix PREOP_Minus [(Tok (mktok TK_Minus [] [45] (mkspan (LineCol 1 1) (LineCol 1 2)))); (Tok (mktok TK_Symbol [] [97] (mkspan (LineCol 1 2) (LineCol 1 3))))]) = Ok (mkspan (LineCol 1 1) (LineCol 1 3)).
Proof. vm_compute. reflexivity. Qed.

(** tests/test_abstract.rs test_abstract_flatten_times_quirk *)
Example rust_147_test_abstract_flatten_times_quirk_src : get_source (Op KBinary BOP_Divide [(Tok (mktok TK_Symbol [] [98] (mkspan (LineCol 1 6) (LineCol 1 7)))); (Tok (mktok TK_Whitespace [] [32] (mkspan (LineCol 1 7) (LineCol 1 8)))); (Tok (mktok TK_Slash [] [47] (mkspan (LineCol 1 8) (LineCol 1 9)))); (Tok (mktok TK_Whitespace [] [32] (mkspan (LineCol 1 9) (LineCol 1 10)))); (Tok (mktok TK_Symbol [] [99] (mkspan (LineCol 1 10) (LineCol 1 11))))]) = Ok (mkspan (LineCol 1 6) (LineCol 1 11)).
Proof. vm_compute. reflexivity. Qed.

(** tests/test_abstract.rs test_abstract_flatten_times_quirk *)
Example rust_148_test_abstract_flatten_times_quirk_src : get_source (Op KInfix IOP_Times [(Op KPrefix PREOP_Minus [(Tok (mktok TK_Minus [] [45] (mkspan (LineCol 1 1) (LineCol 1 2)))); (Tok (mktok TK_Symbol [] [97] (mkspan (LineCol 1 2) (LineCol 1 3))))]); (Tok (mktok TK_Whitespace [] [32] (mkspan (LineCol 1 3) (LineCol 1 4)))); (Tok (mktok TK_Star [] [42] (mkspan (LineCol 1 4) (LineCol 1 5)))); (Tok (mktok TK_Whitespace [] [32] (mkspan (LineCol 1 5) (LineCol 1 6)))); (Op KBinary BOP_Divide [(Tok (mktok TK_Symbol [] [98] (mkspan (LineCol 1 6) (LineCol 1 7)))); (Tok (mktok TK_Whitespace [] [32] (mkspan (LineCol 1 7) (LineCol 1 8)))); (Tok (mktok TK_Slash [] [47] (mkspan (LineCol 1 8) (LineCol 1 9)))); (Tok (mktok TK_Whitespace [] [32] (mkspan (LineCol 1 9) (LineCol 1 10)))); (Tok (mktok TK_Symbol [] [99] (mkspan (LineCol 1 10) (LineCol 1 11))))]); (Tok (mktok TK_Whitespace [] [32] (mkspan (LineCol 1 11) (LineCol 1 12)))); (Tok (mktok TK_Fake_ImplicitTimes [] [] (mkspan (LineCol 1 12) (LineCol 1 12)))); (Tok (mktok TK_Symbol [] [100] (mkspan (LineCol 1 12) (LineCol 1 13)))); (Tok (mktok TK_Whitespace [] [32] (mkspan (LineCol 1 13) (LineCol 1 14)))); (Tok (mktok TK_LongName_InvisibleTimes [] [92;91;73;110;118;105;115;105;98;108;101;84;105;109;101;115;93] (mkspan (LineCol 1 14) (LineCol 1 31)))); (Tok (mktok TK_Whitespace [] [32] (mkspan (LineCol 1 31) (LineCol 1 32)))); (Tok (mktok TK_Symbol [] [101] (mkspan (LineCol 1 32) (LineCol 1 33)))); (Tok (mktok TK_Whitespace [] [32] (mkspan (LineCol 1 33) (LineCol 1 34)))); (Tok (mktok TK_LongName_Times [] [92;91;84;105;109;101;115;93] (mkspan (LineCol 1 34) (LineCol 1 42)))); (Tok (mktok TK_Whitespace [] [32] (mkspan (LineCol 1 42) (LineCol 1 43)))); (Tok (mktok TK_Symbol [] [102] (mkspan (LineCol 1 43) (LineCol 1 44))))]) = Ok (mkspan (LineCol 1 1) (LineCol 1 44)).
Proof. vm_compute. reflexivity. Qed.

(** tests/test_abstract.rs test_abstract_flatten_times_quirk *)
Example rust_149_test_abstract_flatten_times_quirk : (rbind (agg1 (rmap (fun p => strip (fst p)) (parse_cst default_opts true NotScript [45;97;32;42;32;98;32;47;32;99;32;100;32;92;91;73;110;118;105;115;105;98;108;101;84;105;109;101;115;93;32;101;32;92;91;84;105;109;101;115;93;32;102]))) (abstract_cst (mk_aopts true true false false quoted))) = Ok (ACall (ALeaf TK_Symbol [84;105;109;101;115] (mk_ameta Unknown [])) [(ACall (ALeaf TK_Symbol [84;105;109;101;115] (mk_ameta Unknown [])) [(ALeaf TK_Integer [45;49] (mk_ameta Unknown [])); (ALeaf TK_Symbol [97] (mk_ameta (Known (mkspan (LineCol 1 2) (LineCol 1 3))) []))] (mk_ameta (Known (mkspan (LineCol 1 1) (LineCol 1 3))) [])); (ACall (ALeaf TK_Symbol [84;105;109;101;115] (mk_ameta Unknown [])) [(ALeaf TK_Symbol [98] (mk_ameta (Known (mkspan (LineCol 1 6) (LineCol 1 7))) [])); (ACall (ALeaf TK_Symbol [80;111;119;101;114] (mk_ameta Unknown [])) [(ALeaf TK_Symbol [99] (mk_ameta (Known (mkspan (LineCol 1 10) (LineCol 1 11))) [])); (ALeaf TK_Integer [45;49] (mk_ameta Unknown []))] (mk_ameta (Known (mkspan (LineCol 1 6) (LineCol 1 11))) []))] (mk_ameta (Known (mkspan (LineCol 1 6) (LineCol 1 11))) [])); (ALeaf TK_Symbol [100] (mk_ameta (Known (mkspan (LineCol 1 12) (LineCol 1 13))) [])); (ALeaf TK_Symbol [101] (mk_ameta (Known (mkspan (LineCol 1 32) (LineCol 1 33))) [])); (ALeaf TK_Symbol [102] (mk_ameta (Known (mkspan (LineCol 1 43) (LineCol 1 44))) []))] (mk_ameta (Known (mkspan (LineCol 1 1) (LineCol 1 44))) [])).
Proof. vm_compute. reflexivity. Qed.

(** tests/test_abstract.rs test_abstract_flatten_times_quirk *)
Example rust_150_test_abstract_flatten_times_quirk : (rbind (agg1 (rmap (fun p => strip (fst p)) (parse_cst default_opts true NotScript [45;97;32;42;32;98;32;47;32;99;32;100;32;92;91;73;110;118;105;115;105;98;108;101;84;105;109;101;115;93;32;101;32;92;91;84;105;109;101;115;93;32;102]))) (abstract_cst (mk_aopts true true true false quoted))) = Ok (ACall (ALeaf TK_Symbol [84;105;109;101;115] (mk_ameta Unknown [])) [(ALeaf TK_Integer [45;49] (mk_ameta Unknown [])); (ALeaf TK_Symbol [97] (mk_ameta (Known (mkspan (LineCol 1 2) (LineCol 1 3))) [])); (ALeaf TK_Symbol [98] (mk_ameta (Known (mkspan (LineCol 1 6) (LineCol 1 7))) [])); (ACall (ALeaf TK_Symbol [80;111;119;101;114] (mk_ameta Unknown [])) [(ALeaf TK_Symbol [99] (mk_ameta (Known (mkspan (LineCol 1 10) (LineCol 1 11))) [])); (ALeaf TK_Integer [45;49] (mk_ameta Unknown []))] (mk_ameta (Known (mkspan (LineCol 1 1) (LineCol 1 44))) [])); (ALeaf TK_Symbol [100] (mk_ameta (Known (mkspan (LineCol 1 12) (LineCol 1 13))) [])); (ALeaf TK_Symbol [101] (mk_ameta (Known (mkspan (LineCol 1 32) (LineCol 1 33))) [])); (ALeaf TK_Symbol [102] (mk_ameta (Known (mkspan (LineCol 1 43) (LineCol 1 44))) []))] (mk_ameta (Known (mkspan (LineCol 1 1) (LineCol 1 44))) [])).
Proof. vm_compute. reflexivity. Qed.

(** tests/test_abstract.rs test_abstract_flatten_times_quirk *)
Example rust_151_test_abstract_flatten_times_quirk : (rmap (fun p => strip (fst p)) (parse_cst default_opts true NotScript [45;32;45;32;97])) = Ok (Op KPrefix PREOP_Minus [(Tok (mktok TK_Minus [] [45] (mkspan (LineCol 1 1) (LineCol 1 2)))); (Tok (mktok TK_Whitespace [] [32] (mkspan (LineCol 1 2) (LineCol 1 3)))); (Op KPrefix PREOP_Minus [(Tok (mktok TK_Minus [] [45] (mkspan (LineCol 1 3) (LineCol 1 4)))); (Tok (mktok TK_Whitespace [] [32] (mkspan (LineCol 1 4) (LineCol 1 5)))); (Tok (mktok TK_Symbol [] [97] (mkspan (LineCol 1 5) (LineCol 1 6))))])]).
Proof. vm_compute. reflexivity. Qed.

(** tests/test_abstract.rs test_abstract_flatten_times_quirk *)
Example rust_152_test_abstract_flatten_times_quirk_src : get_source (Op KPrefix PREOP_Minus [(Tok (mktok TK_Minus [] [45] (mkspan (LineCol 1 3) (LineCol 1 4)))); (Tok (mktok TK_Whitespace [] [32] (mkspan (LineCol 1 4) (LineCol 1 5)))); (Tok (mktok TK_Symbol [] [97] (mkspan (LineCol 1 5) (LineCol 1 6))))]) = Ok (mkspan (LineCol 1 3) (LineCol 1 6)).
Proof. vm_compute. reflexivity. Qed.

(** tests/test_abstract.rs test_abstract_flatten_times_quirk *)
Example rust_153_test_abstract_flatten_times_quirk_src : get_source (Op KPrefix PREOP_Minus [(Tok (mktok TK_Minus [] [45] (mkspan (LineCol 1 1) (LineCol 1 2)))); (Tok (mktok TK_Whitespace [] [32] (mkspan (LineCol 1 2) (LineCol 1 3)))); (Op KPrefix PREOP_Minus [(Tok (mktok TK_Minus [] [45] (mkspan (LineCol 1 3) (LineCol 1 4)))); (Tok (mktok TK_Whitespace [] [32] (mkspan (LineCol 1 4) (LineCol 1 5)))); (Tok (mktok TK_Symbol [] [97] (mkspan (LineCol 1 5) (LineCol 1 6))))])]) = Ok (mkspan (LineCol 1 1) (LineCol 1 6)).
Proof. vm_compute. reflexivity. Qed.

(** tests/test_abstract.rs test_abstract_flatten_times_quirk *)
Example rust_154_test_abstract_flatten_times_quirk : (rbind (agg1 (rmap (fun p => strip (fst p)) (parse_cst default_opts true NotScript [45;32;45;32;97]))) (abstract_cst (mk_aopts true true false false quoted))) = Ok (ACall (ALeaf TK_Symbol [84;105;109;101;115] (mk_ameta Unknown [])) [(ALeaf TK_Integer [45;49] (mk_ameta Unknown [])); (ACall (ALeaf TK_Symbol [84;105;109;101;115] (mk_ameta Unknown [])) [(ALeaf TK_Integer [45;49] (mk_ameta Unknown [])); (ALeaf TK_Symbol [97] (mk_ameta (Known (mkspan (LineCol 1 5) (LineCol 1 6))) []))] (mk_ameta (Known (mkspan (LineCol 1 3) (LineCol 1 6))) []))] (mk_ameta (Known (mkspan (LineCol 1 1) (LineCol 1 6))) [])).
Proof. vm_compute. reflexivity. Qed.

(** tests/test_abstract.rs test_abstract_flatten_times_quirk *)
Example rust_155_test_abstract_flatten_times_quirk : (rbind (agg1 (rmap (fun p => strip (fst p)) (parse_cst default_opts true NotScript [45;32;45;32;97]))) (abstract_cst (mk_aopts true true true false quoted))) = Ok (ACall (ALeaf TK_Symbol [84;105;109;101;115] (mk_ameta Unknown [])) [(ALeaf TK_Integer [45;49] (mk_ameta Unknown [])); (ALeaf TK_Integer [45;49] (mk_ameta Unknown [])); (ALeaf TK_Symbol [97] (mk_ameta (Known (mkspan (LineCol 1 5) (LineCol 1 6))) []))] (mk_ameta (Known (mkspan (LineCol 1 1) (LineCol 1 6))) [])).
Proof. vm_compute. reflexivity. Qed.

(** tests/test_abstract.rs test_abstract_flatten_times_quirk *)
Example rust_156_test_abstract_flatten_times_quirk : (rmap (fun p => strip (fst p)) (parse_cst default_opts true NotScript [45;32;45;32;97;32;42;32;98])) = Ok (Op KInfix IOP_Times [(Op KPrefix PREOP_Minus [(Tok (mktok TK_Minus [] [45] (mkspan (LineCol 1 1) (LineCol 1 2)))); (Tok (mktok TK_Whitespace [] [32] (mkspan (LineCol 1 2) (LineCol 1 3)))); (Op KPrefix PREOP_Minus [(Tok (mktok TK_Minus [] [45] (mkspan (LineCol 1 3) (LineCol 1 4)))); (Tok (mktok TK_Whitespace [] [32] (mkspan (LineCol 1 4) (LineCol 1 5)))); (Tok (mktok TK_Symbol [] [97] (mkspan (LineCol 1 5) (LineCol 1 6))))])]); (Tok (mktok TK_Whitespace [] [32] (mkspan (LineCol 1 6) (LineCol 1 7)))); (Tok (mktok TK_Star [] [42] (mkspan (LineCol 1 7) (LineCol 1 8)))); (Tok (mktok TK_Whitespace [] [32] (mkspan (LineCol 1 8) (LineCol 1 9)))); (Tok (mktok TK_Symbol [] [98] (mkspan (LineCol 1 9) (LineCol 1 10))))]).
Proof. vm_compute. reflexivity. Qed.

(** tests/test_abstract.rs test_abstract_flatten_times_quirk *)
Example rust_157_test_abstract_flatten_times_quirk_src : get_source (Op KPrefix PREOP_Minus [(Tok (mktok TK_Minus [] [45] (mkspan (LineCol 1 3) (LineCol 1 4)))); (Tok (mktok TK_Whitespace [] [32] (mkspan (LineCol 1 4) (LineCol 1 5)))); (Tok (mktok TK_Symbol [] [97] (mkspan (LineCol 1 5) (LineCol 1 6))))]) = Ok (mkspan (LineCol 1 3) (LineCol 1 6)).
Proof. vm_compute. reflexivity. Qed.

(** tests/test_abstract.rs test_abstract_flatten_times_quirk *)
Example rust_158_test_abstract_flatten_times_quirk_src : get_source (Op KPrefix PREOP_Minus [(Tok (mktok TK_Minus [] [45] (mkspan (LineCol 1 1) (LineCol 1 2)))); (Tok (mktok TK_Whitespace [] [32] (mkspan (LineCol 1 2) (LineCol 1 3)))); (Op KPrefix PREOP_Minus [(Tok (mktok TK_Minus [] [45] (mkspan (LineCol 1 3) (LineCol 1 4)))); (Tok (mktok TK_Whitespace [] [32] (mkspan (LineCol 1 4) (LineCol 1 5)))); (Tok (mktok TK_Symbol [] [97] (mkspan (LineCol 1 5) (LineCol 1 6))))])]) = Ok (mkspan (LineCol 1 1) (LineCol 1 6)).
Proof. vm_compute. reflexivity. Qed.

(** tests/test_abstract.rs test_abstract_flatten_times_quirk *)
Example rust_159_test_abstract_flatten_times_quirk_src : get_source (Op KInfix IOP_Times [(Op KPrefix PREOP_Minus [(Tok (mktok TK_Minus [] [45] (mkspan (LineCol 1 1) (LineCol 1 2)))); (Tok (mktok TK_Whitespace [] [32] (mkspan (LineCol 1 2) (LineCol 1 3)))); (Op KPrefix PREOP_Minus [(Tok (mktok TK_Minus [] [45] (mkspan (LineCol 1 3) (LineCol 1 4)))); (Tok (mktok TK_Whitespace [] [32] (mkspan (LineCol 1 4) (LineCol 1 5)))); (Tok (mktok TK_Symbol [] [97] (mkspan (LineCol 1 5) (LineCol 1 6))))])]); (Tok (mktok TK_Whitespace [] [32] (mkspan (LineCol 1 6) (LineCol 1 7)))); (Tok (mktok TK_Star [] [42] (mkspan (LineCol 1 7) (LineCol 1 8)))); (Tok (mktok TK_Whitespace [] [32] (mkspan (LineCol 1 8) (LineCol 1 9)))); (Tok (mktok TK_Symbol [] [98] (mkspan (LineCol 1 9) (LineCol 1 10))))]) = Ok (mkspan (LineCol 1 1) (LineCol 1 10)).
Proof. vm_compute. reflexivity. Qed.

(** tests/test_abstract.rs test_abstract_flatten_times_quirk *)
Example rust_160_test_abstract_flatten_times_quirk : (rbind (agg1 (rmap (fun p => strip (fst p)) (parse_cst default_opts true NotScript [45;32;45;32;97;32;42;32;98]))) (abstract_cst (mk_aopts true true false false quoted))) = Ok (ACall (ALeaf TK_Symbol [84;105;109;101;115] (mk_ameta Unknown [])) [(ACall (ALeaf TK_Symbol [84;105;109;101;115] (mk_ameta Unknown [])) [(ALeaf TK_Integer [45;49] (mk_ameta Unknown [])); (ACall (ALeaf TK_Symbol [84;105;109;101;115] (mk_ameta Unknown [])) [(ALeaf TK_Integer [45;49] (mk_ameta Unknown [])); (ALeaf TK_Symbol [97] (mk_ameta (Known (mkspan (LineCol 1 5) (LineCol 1 6))) []))] (mk_ameta (Known (mkspan (LineCol 1 3) (LineCol 1 6))) []))] (mk_ameta (Known (mkspan (LineCol 1 1) (LineCol 1 6))) [])); (ALeaf TK_Symbol [98] (mk_ameta (Known (mkspan (LineCol 1 9) (LineCol 1 10))) []))] (mk_ameta (Known (mkspan (LineCol 1 1) (LineCol 1 10))) [])).
Proof. vm_compute. reflexivity. Qed.

(** tests/test_abstract.rs test_abstract_flatten_times_quirk *)
Example rust_161_test_abstract_flatten_times_quirk : (rbind (agg1 (rmap (fun p => strip (fst p)) (parse_cst default_opts true NotScript [45;32;45;32;97;32;42;32;98]))) (abstract_cst (mk_aopts true true true false quoted))) = Ok (ACall (ALeaf TK_Symbol [84;105;109;101;115] (mk_ameta Unknown [])) [(ALeaf TK_Integer [45;49] (mk_ameta Unknown [])); (ALeaf TK_Integer [45;49] (mk_ameta Unknown [])); (ALeaf TK_Symbol [97] (mk_ameta (Known (mkspan (LineCol 1 5) (LineCol 1 6))) [])); (ALeaf TK_Symbol [98] (mk_ameta (Known (mkspan (LineCol 1 9) (LineCol 1 10))) []))] (mk_ameta (Known (mkspan (LineCol 1 1) (LineCol 1 10))) [])).
Proof. vm_compute. reflexivity. Qed.

(** tests/test_abstract.rs test_abstract_flatten_times_quirk *)
Example rust_162_test_abstract_flatten_times_quirk : (rmap (fun p => strip (fst p)) (parse_cst default_opts true NotScript [45;97;47;98])) = Ok (Op KBinary BOP_Divide [(Op KPrefix PREOP_Minus [(Tok (mktok TK_Minus [] [45] (mkspan (LineCol 1 1) (LineCol 1 2)))); (Tok (mktok TK_Symbol [] [97] (mkspan (LineCol 1 2) (LineCol 1 3))))]); (Tok (mktok TK_Slash [] [47] (mkspan (LineCol 1 3) (LineCol 1 4)))); (Tok (mktok TK_Symbol [] [98] (mkspan (LineCol 1 4) (LineCol 1 5))))]).
Proof. vm_compute. reflexivity. Qed.

(** tests/test_abstract.rs test_abstract_flatten_times_quirk *)
Example rust_163_test_abstract_flatten_times_quirk_src : get_source (Op KPrefix PREOP_Minus [(Tok (mktok TK_Minus [] [45] (mkspan (LineCol 1 1) (LineCol 1 2)))); (Tok (mktok TK_Symbol [] [97] (mkspan (LineCol 1 2) (LineCol 1 3))))]) = Ok (mkspan (LineCol 1 1) (LineCol 1 3)).
Proof. vm_compute. reflexivity. Qed.

(** tests/test_abstract.rs test_abstract_flatten_times_quirk *)
Example rust_164_test_abstract_flatten_times_quirk_src : get_source (Op KBinary BOP_Divide [(Op KPrefix PREOP_Minus [(Tok (mktok TK_Minus [] [45] (mkspan (LineCol 1 1) (LineCol 1 2)))); (Tok (mktok TK_Symbol [] [97] (mkspan (LineCol 1 2) (LineCol 1 3))))]); (Tok (mktok TK_Slash [] [47] (mkspan (LineCol 1 3) (LineCol 1 4)))); (Tok (mktok TK_Symbol [] [98] (mkspan (LineCol 1 4) (LineCol 1 5))))]) = Ok (mkspan (LineCol 1 1) (LineCol 1 5)).
Proof. vm_compute. reflexivity. Qed.

(** tests/test_abstract.rs test_abstract_flatten_times_quirk *)
Example rust_165_test_abstract_flatten_times_quirk : (rbind (agg1 (rmap (fun p => strip (fst p)) (parse_cst default_opts true NotScript [45;97;47;98]))) (abstract_cst (mk_aopts true true true false quoted))) = Ok (ACall (ALeaf TK_Symbol [84;105;109;101;115] (mk_ameta Unknown [])) [(ALeaf TK_Integer [45;49] (mk_ameta Unknown [])); (ALeaf TK_Symbol [97] (mk_ameta (Known (mkspan (LineCol 1 2) (LineCol 1 3))) [])); (ACall (ALeaf TK_Symbol [80;111;119;101;114] (mk_ameta Unknown [])) [(ALeaf TK_Symbol [98] (mk_ameta (Known (mkspan (LineCol 1 4) (LineCol 1 5))) [])); (ALeaf TK_Integer [45;49] (mk_ameta Unknown []))] (mk_ameta (Known (mkspan (LineCol 1 1) (LineCol 1 5))) []))] (mk_ameta (Known (mkspan (LineCol 1 1) (LineCol 1 5))) [])).
Proof. vm_compute. reflexivity. Qed.

(** tests/test_abstract.rs test_abstract_flatten_times_quirk *)
Example rust_166_test_abstract_flatten_times_quirk : (rbind (agg1 (rmap (fun p => strip (fst p)) (parse_cst default_opts true NotScript [45;97;47;98]))) (abstract_cst (mk_aopts true true false false quoted))) = Ok (ACall (ALeaf TK_Symbol [84;105;109;101;115] (mk_ameta Unknown [])) [(ACall (ALeaf TK_Symbol [84;105;109;101;115] (mk_ameta Unknown [])) [(ALeaf TK_Integer [45;49] (mk_ameta Unknown [])); (ALeaf TK_Symbol [97] (mk_ameta (Known (mkspan (LineCol 1 2) (LineCol 1 3))) []))] (mk_ameta (Known (mkspan (LineCol 1 1) (LineCol 1 3))) [])); (ACall (ALeaf TK_Symbol [80;111;119;101;114] (mk_ameta Unknown [])) [(ALeaf TK_Symbol [98] (mk_ameta (Known (mkspan (LineCol 1 4) (LineCol 1 5))) [])); (ALeaf TK_Integer [45;49] (mk_ameta Unknown []))] (mk_ameta (Known (mkspan (LineCol 1 1) (LineCol 1 5))) []))] (mk_ameta (Known (mkspan (LineCol 1 1) (LineCol 1 5))) [])).
Proof. vm_compute. reflexivity. Qed.

(** tests/test_abstract.rs test_abstract_flatten_times_quirk *)
Example rust_167_test_abstract_flatten_times_quirk : (rmap (fun p => strip (fst p)) (parse_cst default_opts true NotScript [97;42;45;40;98;41;47;99])) = Ok (Op KInfix IOP_Times [(Tok (mktok TK_Symbol [] [97] (mkspan (LineCol 1 1) (LineCol 1 2)))); (Tok (mktok TK_Star [] [42] (mkspan (LineCol 1 2) (LineCol 1 3)))); (Op KBinary BOP_Divide [(Op KPrefix PREOP_Minus [(Tok (mktok TK_Minus [] [45] (mkspan (LineCol 1 3) (LineCol 1 4)))); (Op KGroup GOP_CodeParser_GroupParen [(Tok (mktok TK_OpenParen [] [40] (mkspan (LineCol 1 4) (LineCol 1 5)))); (Tok (mktok TK_Symbol [] [98] (mkspan (LineCol 1 5) (LineCol 1 6)))); (Tok (mktok TK_CloseParen [] [41] (mkspan (LineCol 1 6) (LineCol 1 7))))])]); (Tok (mktok TK_Slash [] [47] (mkspan (LineCol 1 7) (LineCol 1 8)))); (Tok (mktok TK_Symbol [] [99] (mkspan (LineCol 1 8) (LineCol 1 9))))])]).
Proof. vm_compute. reflexivity. Qed.

(** tests/test_abstract.rs test_abstract_flatten_times_quirk *)
Example rust_168_test_abstract_flatten_times_quirk_src : get_source (Op KGroup GOP_CodeParser_GroupParen [(Tok (mktok TK_OpenParen [] [40] (mkspan (LineCol 1 4) (LineCol 1 5)))); (Tok (mktok TK_Symbol [] [98] (mkspan (LineCol 1 5) (LineCol 1 6)))); (Tok (mktok TK_CloseParen [] [41] (mkspan (LineCol 1 6) (LineCol 1 7))))]) = Ok (mkspan (LineCol 1 4) (LineCol 1 7)).
Proof. vm_compute. reflexivity. Qed.

(** tests/test_abstract.rs test_abstract_flatten_times_quirk *)
Example rust_169_test_abstract_flatten_times_quirk_src : get_source (Op KPrefix PREOP_Minus [(Tok (mktok TK_Minus [] [45] (mkspan (LineCol 1 3) (LineCol 1 4)))); (Op KGroup GOP_CodeParser_GroupParen [(Tok (mktok TK_OpenParen [] [40] (mkspan (LineCol 1 4) (LineCol 1 5)))); (Tok (mktok TK_Symbol [] [98] (mkspan (LineCol 1 5) (LineCol 1 6)))); (Tok (mktok TK_CloseParen [] [41] (mkspan (LineCol 1 6) (LineCol 1 7))))])]) = Ok (mkspan (LineCol 1 3) (LineCol 1 7)).
Proof. vm_compute. reflexivity. Qed.

(** tests/test_abstract.rs test_abstract_flatten_times_quirk *)
Example rust_170_test_abstract_flatten_times_quirk_src : get_source (Op KBinary BOP_Divide [(Op KPrefix PREOP_Minus [(Tok (mktok TK_Minus [] [45] (mkspan (LineCol 1 3) (LineCol 1 4)))); (Op KGroup GOP_CodeParser_GroupParen [(Tok (mktok TK_OpenParen [] [40] (mkspan (LineCol 1 4) (LineCol 1 5)))); (Tok (mktok TK_Symbol [] [98] (mkspan (LineCol 1 5) (LineCol 1 6)))); (Tok (mktok TK_CloseParen [] [41] (mkspan (LineCol 1 6) (LineCol 1 7))))])]); (Tok (mktok TK_Slash [] [47] (mkspan (LineCol 1 7) (LineCol 1 8)))); (Tok (mktok TK_Symbol [] [99] (mkspan (LineCol 1 8) (LineCol 1 9))))]) = Ok (mkspan (LineCol 1 3) (LineCol 1 9)).
Proof. vm_compute. reflexivity. Qed.

(** tests/test_abstract.rs test_abstract_flatten_times_quirk *)
Example rust_171_test_abstract_flatten_times_quirk_src : get_source (Op KInfix IOP_Times [(Tok (mktok TK_Symbol [] [97] (mkspan (LineCol 1 1) (LineCol 1 2)))); (Tok (mktok TK_Star [] [42] (mkspan (LineCol 1 2) (LineCol 1 3)))); (Op KBinary BOP_Divide [(Op KPrefix PREOP_Minus [(Tok (mktok TK_Minus [] [45] (mkspan (LineCol 1 3) (LineCol 1 4)))); (Op KGroup GOP_CodeParser_GroupParen [(Tok (mktok TK_OpenParen [] [40] (mkspan (LineCol 1 4) (LineCol 1 5)))); (Tok (mktok TK_Symbol [] [98] (mkspan (LineCol 1 5) (LineCol 1 6)))); (Tok (mktok TK_CloseParen [] [41] (mkspan (LineCol 1 6) (LineCol 1 7))))])]); (Tok (mktok TK_Slash [] [47] (mkspan (LineCol 1 7) (LineCol 1 8)))); (Tok (mktok TK_Symbol [] [99] (mkspan (LineCol 1 8) (LineCol 1 9))))])]) = Ok (mkspan (LineCol 1 1) (LineCol 1 9)).
Proof. vm_compute. reflexivity. Qed.

(** tests/test_abstract.rs test_abstract_flatten_times_quirk *)
Example rust_172_test_abstract_flatten_times_quirk : (rbind (agg1 (rmap (fun p => strip (fst p)) (parse_cst default_opts true NotScript [97;42;45;40;98;41;47;99]))) (abstract_cst (mk_aopts true true true false quoted))) = Ok (ACall (ALeaf TK_Symbol [84;105;109;101;115] (mk_ameta Unknown [])) [(ALeaf TK_Symbol [97] (mk_ameta (Known (mkspan (LineCol 1 1) (LineCol 1 2))) [])); (ALeaf TK_Integer [45;49] (mk_ameta Unknown [])); (ALeaf TK_Symbol [98] (mk_ameta (Known (mkspan (LineCol 1 5) (LineCol 1 6))) [])); (ACall (ALeaf TK_Symbol [80;111;119;101;114] (mk_ameta Unknown [])) [(ALeaf TK_Symbol [99] (mk_ameta (Known (mkspan (LineCol 1 8) (LineCol 1 9))) [])); (ALeaf TK_Integer [45;49] (mk_ameta Unknown []))] (mk_ameta (Known (mkspan (LineCol 1 1) (LineCol 1 9))) []))] (mk_ameta (Known (mkspan (LineCol 1 1) (LineCol 1 9))) [])).
Proof. vm_compute. reflexivity. Qed.

(** tests/test_abstract.rs test_abstract_flatten_times_quirk *)
Example rust_173_test_abstract_flatten_times_quirk : (rbind (agg1 (rmap (fun p => strip (fst p)) (parse_cst default_opts true NotScript [97;42;45;40;98;41;47;99]))) (abstract_cst (mk_aopts true true false false quoted))) = Ok (ACall (ALeaf TK_Symbol [84;105;109;101;115] (mk_ameta Unknown [])) [(ALeaf TK_Symbol [97] (mk_ameta (Known (mkspan (LineCol 1 1) (LineCol 1 2))) [])); (ACall (ALeaf TK_Symbol [84;105;109;101;115] (mk_ameta Unknown [])) [(ACall (ALeaf TK_Symbol [84;105;109;101;115] (mk_ameta Unknown [])) [(ALeaf TK_Integer [45;49] (mk_ameta Unknown [])); (ALeaf TK_Symbol [98] (mk_ameta (Known (mkspan (LineCol 1 5) (LineCol 1 6))) []))] (mk_ameta (Known (mkspan (LineCol 1 3) (LineCol 1 7))) [])); (ACall (ALeaf TK_Symbol [80;111;119;101;114] (mk_ameta Unknown [])) [(ALeaf TK_Symbol [99] (mk_ameta (Known (mkspan (LineCol 1 8) (LineCol 1 9))) [])); (ALeaf TK_Integer [45;49] (mk_ameta Unknown []))] (mk_ameta (Known (mkspan (LineCol 1 3) (LineCol 1 9))) []))] (mk_ameta (Known (mkspan (LineCol 1 3) (LineCol 1 9))) []))] (mk_ameta (Known (mkspan (LineCol 1 1) (LineCol 1 9))) [])).
Proof. vm_compute. reflexivity. Qed.

(** tests/test_abstract.rs test_abstract_flatten_times_quirk *)
Example rust_174_test_abstract_flatten_times_quirk : (rmap (fun p => strip (fst p)) (parse_cst default_opts true NotScript [97;42;45;40;45;98;41])) = Ok (Op KInfix IOP_Times [(Tok (mktok TK_Symbol [] [97] (mkspan (LineCol 1 1) (LineCol 1 2)))); (Tok (mktok TK_Star [] [42] (mkspan (LineCol 1 2) (LineCol 1 3)))); (Op KPrefix PREOP_Minus [(Tok (mktok TK_Minus [] [45] (mkspan (LineCol 1 3) (LineCol 1 4)))); (Op KGroup GOP_CodeParser_GroupParen [(Tok (mktok TK_OpenParen [] [40] (mkspan (LineCol 1 4) (LineCol 1 5)))); (Op KPrefix PREOP_Minus [(Tok (mktok TK_Minus [] [45] (mkspan (LineCol 1 5) (LineCol 1 6)))); (Tok (mktok TK_Symbol [] [98] (mkspan (LineCol 1 6) (LineCol 1 7))))]); (Tok (mktok TK_CloseParen [] [41] (mkspan (LineCol 1 7) (LineCol 1 8))))])])]).
Proof. vm_compute. reflexivity. Qed.

(** tests/test_abstract.rs test_abstract_flatten_times_quirk *)
Example rust_175_test_abstract_flatten_times_quirk_src : get_source (Op KPrefix PREOP_Minus [(Tok (mktok TK_Minus [] [45] (mkspan (LineCol 1 5) (LineCol 1 6)))); (Tok (mktok TK_Symbol [] [98] (mkspan (LineCol 1 6) (LineCol 1 7))))]) = Ok (mkspan (LineCol 1 5) (LineCol 1 7)).
Proof. vm_compute. reflexivity. Qed.

(** tests/test_abstract.rs test_abstract_flatten_times_quirk *)
Example rust_176_test_abstract_flatten_times_quirk_src : get_source (Op KGroup GOP_CodeParser_GroupParen [(Tok (mktok TK_OpenParen [] [40] (mkspan (LineCol 1 4) (LineCol 1 5)))); (Op KPrefix PREOP_Minus [(Tok (mktok TK_Minus [] [45] (mkspan (LineCol 1 5) (LineCol 1 6)))); (Tok (mktok TK_Symbol [] [98] (mkspan (LineCol 1 6) (LineCol 1 7))))]); (Tok (mktok TK_CloseParen [] [41] (mkspan (LineCol 1 7) (LineCol 1 8))))]) = Ok (mkspan (LineCol 1 4) (LineCol 1 8)).
Proof. vm_compute. reflexivity. Qed.

(** tests/test_abstract.rs test_abstract_flatten_times_quirk *)
Example rust_177_test_abstract_flatten_times_quirk_src : get_source (Op KPrefix PREOP_Minus [(Tok (mktok TK_Minus [] [45] (mkspan (LineCol 1 3) (LineCol 1 4)))); (Op KGroup GOP_CodeParser_GroupParen [(Tok (mktok TK_OpenParen [] [40] (mkspan (LineCol 1 4) (LineCol 1 5)))); (Op KPrefix PREOP_Minus [(Tok (mktok TK_Minus [] [45] (mkspan (LineCol 1 5) (LineCol 1 6)))); (Tok (mktok TK_Symbol [] [98] (mkspan (LineCol 1 6) (LineCol 1 7))))]); (Tok (mktok TK_CloseParen [] [41] (mkspan (LineCol 1 7) (LineCol 1 8))))])]) = Ok (mkspan (LineCol 1 3) (LineCol 1 8)).
Proof. vm_compute. reflexivity. Qed.

(** tests/test_abstract.rs test_abstract_flatten_times_quirk *)
Example rust_178_test_abstract_flatten_times_quirk_src : get_source (Op KInfix IOP_Times [(Tok (mktok TK_Symbol [] [97] (mkspan (LineCol 1 1) (LineCol 1 2)))); (Tok (mktok TK_Star [] [42] (mkspan (LineCol 1 2) (LineCol 1 3)))); (Op KPrefix PREOP_Minus [(Tok (mktok TK_Minus [] [45] (mkspan (LineCol 1 3) (LineCol 1 4)))); (Op KGroup GOP_CodeParser_GroupParen [(Tok (mktok TK_OpenParen [] [40] (mkspan (LineCol 1 4) (LineCol 1 5)))); (Op KPrefix PREOP_Minus [(Tok (mktok TK_Minus [] [45] (mkspan (LineCol 1 5) (LineCol 1 6)))); (Tok (mktok TK_Symbol [] [98] (mkspan (LineCol 1 6) (LineCol 1 7))))]); (Tok (mktok TK_CloseParen [] [41] (mkspan (LineCol 1 7) (LineCol 1 8))))])])]) = Ok (mkspan (LineCol 1 1) (LineCol 1 8)).
Proof. vm_compute. reflexivity. Qed.

(** tests/test_abstract.rs test_abstract_flatten_times_quirk *)
Example rust_179_test_abstract_flatten_times_quirk : (rbind (agg1 (rmap (fun p => strip (fst p)) (parse_cst default_opts true NotScript [97;42;45;40;45;98;41]))) (abstract_cst (mk_aopts true true true false quoted))) = Ok (ACall (ALeaf TK_Symbol [84;105;109;101;115] (mk_ameta Unknown [])) [(ALeaf TK_Symbol [97] (mk_ameta (Known (mkspan (LineCol 1 1) (LineCol 1 2))) [])); (ALeaf TK_Integer [45;49] (mk_ameta Unknown [])); (ACall (ALeaf TK_Symbol [84;105;109;101;115] (mk_ameta Unknown [])) [(ALeaf TK_Integer [45;49] (mk_ameta Unknown [])); (ALeaf TK_Symbol [98] (mk_ameta (Known (mkspan (LineCol 1 6) (LineCol 1 7))) []))] (mk_ameta (Known (mkspan (LineCol 1 5) (LineCol 1 7))) []))] (mk_ameta (Known (mkspan (LineCol 1 1) (LineCol 1 8))) [])).
Proof. vm_compute. reflexivity. Qed.

(** tests/test_abstract.rs test_abstract_flatten_times_quirk *)
Example rust_180_test_abstract_flatten_times_quirk : (rbind (agg1 (rmap (fun p => strip (fst p)) (parse_cst default_opts true NotScript [97;42;45;40;45;98;41]))) (abstract_cst (mk_aopts true true false false quoted))) = Ok (ACall (ALeaf TK_Symbol [84;105;109;101;115] (mk_ameta Unknown [])) [(ALeaf TK_Symbol [97] (mk_ameta (Known (mkspan (LineCol 1 1) (LineCol 1 2))) [])); (ACall (ALeaf TK_Symbol [84;105;109;101;115] (mk_ameta Unknown [])) [(ALeaf TK_Integer [45;49] (mk_ameta Unknown [])); (ACall (ALeaf TK_Symbol [84;105;109;101;115] (mk_ameta Unknown [])) [(ALeaf TK_Integer [45;49] (mk_ameta Unknown [])); (ALeaf TK_Symbol [98] (mk_ameta (Known (mkspan (LineCol 1 6) (LineCol 1 7))) []))] (mk_ameta (Known (mkspan (LineCol 1 5) (LineCol 1 7))) []))] (mk_ameta (Known (mkspan (LineCol 1 3) (LineCol 1 8))) []))] (mk_ameta (Known (mkspan (LineCol 1 1) (LineCol 1 8))) [])).
Proof. vm_compute. reflexivity. Qed.

(** tests/test_abstract.rs test_abstract_flatten_times_quirk *)
Example rust_181_test_abstract_flatten_times_quirk : (rmap (fun p => strip (fst p)) (parse_cst default_opts true NotScript [97;42;45;40;98;42;99;41])) = Ok (Op KInfix IOP_Times [(Tok (mktok TK_Symbol [] [97] (mkspan (LineCol 1 1) (LineCol 1 2)))); (Tok (mktok TK_Star [] [42] (mkspan (LineCol 1 2) (LineCol 1 3)))); (Op KPrefix PREOP_Minus [(Tok (mktok TK_Minus [] [45] (mkspan (LineCol 1 3) (LineCol 1 4)))); (Op KGroup GOP_CodeParser_GroupParen [(Tok (mktok TK_OpenParen [] [40] (mkspan (LineCol 1 4) (LineCol 1 5)))); (Op KInfix IOP_Times [(Tok (mktok TK_Symbol [] [98] (mkspan (LineCol 1 5) (LineCol 1 6)))); (Tok (mktok TK_Star [] [42] (mkspan (LineCol 1 6) (LineCol 1 7)))); (Tok (mktok TK_Symbol [] [99] (mkspan (LineCol 1 7) (LineCol 1 8))))]); (Tok (mktok TK_CloseParen [] [41] (mkspan (LineCol 1 8) (LineCol 1 9))))])])]).
Proof. vm_compute. reflexivity. Qed.

(** tests/test_abstract.rs test_abstract_flatten_times_quirk *)
Example rust_182_test_abstract_flatten_times_quirk_src : get_source (Op KInfix IOP_Times [(Tok (mktok TK_Symbol [] [98] (mkspan (LineCol 1 5) (LineCol 1 6)))); (Tok (mktok TK_Star [] [42] (mkspan (LineCol 1 6) (LineCol 1 7)))); (Tok (mktok TK_Symbol [] [99] (mkspan (LineCol 1 7) (LineCol 1 8))))]) = Ok (mkspan (LineCol 1 5) (LineCol 1 8)).
Proof. vm_compute. reflexivity. Qed.

(** tests/test_abstract.rs test_abstract_flatten_times_quirk *)
Example rust_183_test_abstract_flatten_times_quirk_src : get_source (Op KGroup GOP_CodeParser_GroupParen [(Tok (mktok TK_OpenParen [] [40] (mkspan (LineCol 1 4) (LineCol 1 5)))); (Op KInfix IOP_Times [(Tok (mktok TK_Symbol [] [98] (mkspan (LineCol 1 5) (LineCol 1 6)))); (Tok (mktok TK_Star [] [42] (mkspan (LineCol 1 6) (LineCol 1 7)))); (Tok (mktok TK_Symbol [] [99] (mkspan (LineCol 1 7) (LineCol 1 8))))]); (Tok (mktok TK_CloseParen [] [41] (mkspan (LineCol 1 8) (LineCol 1 9))))]) = Ok (mkspan (LineCol 1 4) (LineCol 1 9)).
Proof. vm_compute. reflexivity. Qed.

(** tests/test_abstract.rs test_abstract_flatten_times_quirk *)
Example rust_184_test_abstract_flatten_times_quirk_src : get_source (Op KPrefix PREOP_Minus [(Tok (mktok TK_Minus [] [45] (mkspan (LineCol 1 3) (LineCol 1 4)))); (Op KGroup GOP_CodeParser_GroupParen [(Tok (mktok TK_OpenParen [] [40] (mkspan (LineCol 1 4) (LineCol 1 5)))); (Op KInfix IOP_Times [(Tok (mktok TK_Symbol [] [98] (mkspan (LineCol 1 5) (LineCol 1 6)))); (Tok (mktok TK_Star [] [42] (mkspan (LineCol 1 6) (LineCol 1 7)))); (Tok (mktok TK_Symbol [] [99] (mkspan (LineCol 1 7) (LineCol 1 8))))]); (Tok (mktok TK_CloseParen [] [41] (mkspan (LineCol 1 8) (LineCol 1 9))))])]) = Ok (mkspan (LineCol 1 3) (LineCol 1 9)).
Proof. vm_compute. reflexivity. Qed.

(** tests/test_abstract.rs test_abstract_flatten_times_quirk *)
Example rust_185_test_abstract_flatten_times_quirk_src : get_source (Op KInfix IOP_Times [(Tok (mktok TK_Symbol [] [97] (mkspan (LineCol 1 1) (LineCol 1 2)))); (Tok (mktok TK_Star [] [42] (mkspan (LineCol 1 2) (LineCol 1 3)))); (Op KPrefix PREOP_Minus [(Tok (mktok TK_Minus [] [45] (mkspan (LineCol 1 3) (LineCol 1 4)))); (Op KGroup GOP_CodeParser_GroupParen [(Tok (mktok TK_OpenParen [] [40] (mkspan (LineCol 1 4) (LineCol 1 5)))); (Op KInfix IOP_Times [(Tok (mktok TK_Symbol [] [98] (mkspan (LineCol 1 5) (LineCol 1 6)))); (Tok (mktok TK_Star [] [42] (mkspan (LineCol 1 6) (LineCol 1 7)))); (Tok (mktok TK_Symbol [] [99] (mkspan (LineCol 1 7) (LineCol 1 8))))]); (Tok (mktok TK_CloseParen [] [41] (mkspan (LineCol 1 8) (LineCol 1 9))))])])]) = Ok (mkspan (LineCol 1 1) (LineCol 1 9)).
Proof. vm_compute. reflexivity. Qed.

(** tests/test_abstract.rs test_abstract_flatten_times_quirk *)
Example rust_186_test_abstract_flatten_times_quirk : (rbind (agg1 (rmap (fun p => strip (fst p)) (parse_cst default_opts true NotScript [97;42;45;40;98;42;99;41]))) (abstract_cst (mk_aopts true true true false quoted))) = Ok (ACall (ALeaf TK_Symbol [84;105;109;101;115] (mk_ameta Unknown [])) [(ALeaf TK_Symbol [97] (mk_ameta (Known (mkspan (LineCol 1 1) (LineCol 1 2))) [])); (ALeaf TK_Integer [45;49] (mk_ameta Unknown [])); (ACall (ALeaf TK_Symbol [84;105;109;101;115] (mk_ameta Unknown [])) [(ALeaf TK_Symbol [98] (mk_ameta (Known (mkspan (LineCol 1 5) (LineCol 1 6))) [])); (ALeaf TK_Symbol [99] (mk_ameta (Known (mkspan (LineCol 1 7) (LineCol 1 8))) []))] (mk_ameta (Known (mkspan (LineCol 1 5) (LineCol 1 8))) []))] (mk_ameta (Known (mkspan (LineCol 1 1) (LineCol 1 9))) [])).
Proof. vm_compute. reflexivity. Qed.

(** tests/test_abstract.rs test_abstract_flatten_times_quirk *)
Example rust_187_test_abstract_flatten_times_quirk : (rbind (agg1 (rmap (fun p => strip (fst p)) (parse_cst default_opts true NotScript [97;42;45;40;98;42;99;41]))) (abstract_cst (mk_aopts true true false false quoted))) = Ok (ACall (ALeaf TK_Symbol [84;105;109;101;115] (mk_ameta Unknown [])) [(ALeaf TK_Symbol [97] (mk_ameta (Known (mkspan (LineCol 1 1) (LineCol 1 2))) [])); (ACall (ALeaf TK_Symbol [84;105;109;101;115] (mk_ameta Unknown [])) [(ALeaf TK_Integer [45;49] (mk_ameta Unknown [])); (ACall (ALeaf TK_Symbol [84;105;109;101;115] (mk_ameta Unknown [])) [(ALeaf TK_Symbol [98] (mk_ameta (Known (mkspan (LineCol 1 5) (LineCol 1 6))) [])); (ALeaf TK_Symbol [99] (mk_ameta (Known (mkspan (LineCol 1 7) (LineCol 1 8))) []))] (mk_ameta (Known (mkspan (LineCol 1 5) (LineCol 1 8))) []))] (mk_ameta (Known (mkspan (LineCol 1 3) (LineCol 1 9))) []))] (mk_ameta (Known (mkspan (LineCol 1 1) (LineCol 1 9))) [])).
Proof. vm_compute. reflexivity. Qed.

(** tests/test_abstract.rs test_abstract_infix_binary_at_quirk *)
Example rust_188_test_abstract_infix_binary_at_quirk : (rmap (fun p => strip (fst p)) (parse_cst default_opts true NotScript [97;60;62;83;116;114;105;110;103;74;111;105;110;64;98])) = Ok (Op KInfix IOP_StringJoin [(Tok (mktok TK_Symbol [] [97] (mkspan (LineCol 1 1) (LineCol 1 2)))); (Tok (mktok TK_LessGreater [] [60;62] (mkspan (LineCol 1 2) (LineCol 1 4)))); (Op KBinary BOP_CodeParser_BinaryAt [(Tok (mktok TK_Symbol [] [83;116;114;105;110;103;74;111;105;110] (mkspan (LineCol 1 4) (LineCol 1 14)))); (Tok (mktok TK_At [] [64] (mkspan (LineCol 1 14) (LineCol 1 15)))); (Tok (mktok TK_Symbol [] [98] (mkspan (LineCol 1 15) (LineCol 1 16))))])]).
Proof. vm_compute. reflexivity. Qed.

(** tests/test_abstract.rs test_abstract_infix_binary_at_quirk *)
Example rust_189_test_abstract_infix_binary_at_quirk_src : get_source (Op KBinary BOP_CodeParser_BinaryAt [(Tok (mktok TK_Symbol [] [83;116;114;105;110;103;74;111;105;110] (mkspan (LineCol 1 4) (LineCol 1 14)))); (Tok (mktok TK_At [] [64] (mkspan (LineCol 1 14) (LineCol 1 15)))); (Tok (mktok TK_Symbol [] [98] (mkspan (LineCol 1 15) (LineCol 1 16))))]) = Ok (mkspan (LineCol 1 4) (LineCol 1 16)).
Proof. vm_compute. reflexivity. Qed.

(** tests/test_abstract.rs test_abstract_infix_binary_at_quirk *)
Example rust_190_test_abstract_infix_binary_at_quirk_src : get_source (Op KInfix IOP_StringJoin [(Tok (mktok TK_Symbol [] [97] (mkspan (LineCol 1 1) (LineCol 1 2)))); (Tok (mktok TK_LessGreater [] [60;62] (mkspan (LineCol 1 2) (LineCol 1 4)))); (Op KBinary BOP_CodeParser_BinaryAt [(Tok (mktok TK_Symbol [] [83;116;114;105;110;103;74;111;105;110] (mkspan (LineCol 1 4) (LineCol 1 14)))); (Tok (mktok TK_At [] [64] (mkspan (LineCol 1 14) (LineCol 1 15)))); (Tok (mktok TK_Symbol [] [98] (mkspan (LineCol 1 15) (LineCol 1 16))))])]) = Ok (mkspan (LineCol 1 1) (LineCol 1 16)).
Proof. vm_compute. reflexivity. Qed.

(** tests/test_abstract.rs test_abstract_infix_binary_at_quirk *)
Example rust_191_test_abstract_infix_binary_at_quirk : (rbind (agg1 (rmap (fun p => strip (fst p)) (parse_cst default_opts true NotScript [97;60;62;83;116;114;105;110;103;74;111;105;110;64;98]))) (abstract_cst (mk_aopts true false false false quoted))) = Ok (ACall (ALeaf TK_Symbol [83;116;114;105;110;103;74;111;105;110] (mk_ameta Unknown [])) [(ALeaf TK_Symbol [97] (mk_ameta (Known (mkspan (LineCol 1 1) (LineCol 1 2))) [])); (ACall (ALeaf TK_Symbol [83;116;114;105;110;103;74;111;105;110] (mk_ameta (Known (mkspan (LineCol 1 4) (LineCol 1 14))) [])) [(ALeaf TK_Symbol [98] (mk_ameta (Known (mkspan (LineCol 1 15) (LineCol 1 16))) []))] (mk_ameta (Known (mkspan (LineCol 1 4) (LineCol 1 16))) []))] (mk_ameta (Known (mkspan (LineCol 1 1) (LineCol 1 16))) [])).
Proof. vm_compute. reflexivity. Qed.

(** tests/test_abstract.rs test_abstract_infix_binary_at_quirk *)
Example rust_192_test_abstract_infix_binary_at_quirk : (rmap (fun p => strip (fst p)) (parse_cst default_opts true NotScript [97;32;43;32;80;108;117;115;32;64;32;98])) = Ok (Op KInfix IOP_Plus [(Tok (mktok TK_Symbol [] [97] (mkspan (LineCol 1 1) (LineCol 1 2)))); (Tok (mktok TK_Whitespace [] [32] (mkspan (LineCol 1 2) (LineCol 1 3)))); (Tok (mktok TK_Plus [] [43] (mkspan (LineCol 1 3) (LineCol 1 4)))); (Tok (mktok TK_Whitespace [] [32] (mkspan (LineCol 1 4) (LineCol 1 5)))); (Op KBinary BOP_CodeParser_BinaryAt [(Tok (mktok TK_Symbol [] [80;108;117;115] (mkspan (LineCol 1 5) (LineCol 1 9)))); (Tok (mktok TK_Whitespace [] [32] (mkspan (LineCol 1 9) (LineCol 1 10)))); (Tok (mktok TK_At [] [64] (mkspan (LineCol 1 10) (LineCol 1 11)))); (Tok (mktok TK_Whitespace [] [32] (mkspan (LineCol 1 11) (LineCol 1 12)))); (Tok (mktok TK_Symbol [] [98] (mkspan (LineCol 1 12) (LineCol 1 13))))])]).
Proof. vm_compute. reflexivity. Qed.

(** tests/test_abstract.rs test_abstract_infix_binary_at_quirk *)
Example rust_193_test_abstract_infix_binary_at_quirk_src : get_source (Op KBinary BOP_CodeParser_BinaryAt [(Tok (mktok TK_Symbol [] [80;108;117;115] (mkspan (LineCol 1 5) (LineCol 1 9)))); (Tok (mktok TK_Whitespace [] [32] (mkspan (LineCol 1 9) (LineCol 1 10)))); (Tok (mktok TK_At [] [64] (mkspan (LineCol 1 10) (LineCol 1 11)))); (Tok (mktok TK_Whitespace [] [32] (mkspan (LineCol 1 11) (LineCol 1 12)))); (Tok (mktok TK_Symbol [] [98] (mkspan (LineCol 1 12) (LineCol 1 13))))]) = Ok (mkspan (LineCol 1 5) (LineCol 1 13)).
Proof. vm_compute. reflexivity. Qed.

(** tests/test_abstract.rs test_abstract_infix_binary_at_quirk *)
Example rust_194_test_abstract_infix_binary_at_quirk_src : get_source (Op KInfix IOP_Plus [(Tok (mktok TK_Symbol [] [97] (mkspan (LineCol 1 1) (LineCol 1 2)))); (Tok (mktok TK_Whitespace [] [32] (mkspan (LineCol 1 2) (LineCol 1 3)))); (Tok (mktok TK_Plus [] [43] (mkspan (LineCol 1 3) (LineCol 1 4)))); (Tok (mktok TK_Whitespace [] [32] (mkspan (LineCol 1 4) (LineCol 1 5)))); (Op KBinary BOP_CodeParser_BinaryAt [(Tok (mktok TK_Symbol [] [80;108;117;115] (mkspan (LineCol 1 5) (LineCol 1 9)))); (Tok (mktok TK_Whitespace [] [32] (mkspan (LineCol 1 9) (LineCol 1 10)))); (Tok (mktok TK_At [] [64] (mkspan (LineCol 1 10) (LineCol 1 11)))); (Tok (mktok TK_Whitespace [] [32] (mkspan (LineCol 1 11) (LineCol 1 12)))); (Tok (mktok TK_Symbol [] [98] (mkspan (LineCol 1 12) (LineCol 1 13))))])]) = Ok (mkspan (LineCol 1 1) (LineCol 1 13)).
Proof. vm_compute. reflexivity. Qed.

(** tests/test_abstract.rs test_abstract_infix_binary_at_quirk *)
Example rust_195_test_abstract_infix_binary_at_quirk : (rbind (agg1 (rmap (fun p => strip (fst p)) (parse_cst default_opts true NotScript [97;32;43;32;80;108;117;115;32;64;32;98]))) (abstract_cst (mk_aopts true false false false quoted))) = Ok (ACall (ALeaf TK_Symbol [80;108;117;115] (mk_ameta Unknown [])) [(ALeaf TK_Symbol [97] (mk_ameta (Known (mkspan (LineCol 1 1) (LineCol 1 2))) [])); (ACall (ALeaf TK_Symbol [80;108;117;115] (mk_ameta (Known (mkspan (LineCol 1 5) (LineCol 1 9))) [])) [(ALeaf TK_Symbol [98] (mk_ameta (Known (mkspan (LineCol 1 12) (LineCol 1 13))) []))] (mk_ameta (Known (mkspan (LineCol 1 5) (LineCol 1 13))) []))] (mk_ameta (Known (mkspan (LineCol 1 1) (LineCol 1 13))) [])).
Proof. vm_compute. reflexivity. Qed.

(** tests/test_abstract.rs test_abstract_infix_binary_at_quirk *)
Example rust_196_test_abstract_infix_binary_at_quirk : (rmap (fun p => strip (fst p)) (parse_cst default_opts true NotScript [97;32;61;61;61;32;83;97;109;101;81;32;64;32;98])) = Ok (Op KInfix IOP_SameQ [(Tok (mktok TK_Symbol [] [97] (mkspan (LineCol 1 1) (LineCol 1 2)))); (Tok (mktok TK_Whitespace [] [32] (mkspan (LineCol 1 2) (LineCol 1 3)))); (Tok (mktok TK_EqualEqualEqual [] [61;61;61] (mkspan (LineCol 1 3) (LineCol 1 6)))); (Tok (mktok TK_Whitespace [] [32] (mkspan (LineCol 1 6) (LineCol 1 7)))); (Op KBinary BOP_CodeParser_BinaryAt [(Tok (mktok TK_Symbol [] [83;97;109;101;81] (mkspan (LineCol 1 7) (LineCol 1 12)))); (Tok (mktok TK_Whitespace [] [32] (mkspan (LineCol 1 12) (LineCol 1 13)))); (Tok (mktok TK_At [] [64] (mkspan (LineCol 1 13) (LineCol 1 14)))); (Tok (mktok TK_Whitespace [] [32] (mkspan (LineCol 1 14) (LineCol 1 15)))); (Tok (mktok TK_Symbol [] [98] (mkspan (LineCol 1 15) (LineCol 1 16))))])]).
Proof. vm_compute. reflexivity. Qed.

(** tests/test_abstract.rs test_abstract_infix_binary_at_quirk *)
Example rust_197_test_abstract_infix_binary_at_quirk_src : get_source (Op KBinary BOP_CodeParser_BinaryAt [(Tok (mktok TK_Symbol [] [83;97;109;101;81] (mkspan (LineCol 1 7) (LineCol 1 12)))); (Tok (mktok TK_Whitespace [] [32] (mkspan (LineCol 1 12) (LineCol 1 13)))); (Tok (mktok TK_At [] [64] (mkspan (LineCol 1 13) (LineCol 1 14)))); (Tok (mktok TK_Whitespace [] [32] (mkspan (LineCol 1 14) (LineCol 1 15)))); (Tok (mktok TK_Symbol [] [98] (mkspan (LineCol 1 15) (LineCol 1 16))))]) = Ok (mkspan (LineCol 1 7) (LineCol 1 16)).
Proof. vm_compute. reflexivity. Qed.

(** tests/test_abstract.rs test_abstract_infix_binary_at_quirk *)
Example rust_198_test_abstract_infix_binary_at_quirk_src : get_source (Op KInfix IOP_SameQ [(Tok (mktok TK_Symbol [] [97] (mkspan (LineCol 1 1) (LineCol 1 2)))); (Tok (mktok TK_Whitespace [] [32] (mkspan (LineCol 1 2) (LineCol 1 3)))); (Tok (mktok TK_EqualEqualEqual [] [61;61;61] (mkspan (LineCol 1 3) (LineCol 1 6)))); (Tok (mktok TK_Whitespace [] [32] (mkspan (LineCol 1 6) (LineCol 1 7)))); (Op KBinary BOP_CodeParser_BinaryAt [(Tok (mktok TK_Symbol [] [83;97;109;101;81] (mkspan (LineCol 1 7) (LineCol 1 12)))); (Tok (mktok TK_Whitespace [] [32] (mkspan (LineCol 1 12) (LineCol 1 13)))); (Tok (mktok TK_At [] [64] (mkspan (LineCol 1 13) (LineCol 1 14)))); (Tok (mktok TK_Whitespace [] [32] (mkspan (LineCol 1 14) (LineCol 1 15)))); (Tok (mktok TK_Symbol [] [98] (mkspan (LineCol 1 15) (LineCol 1 16))))])]) = Ok (mkspan (LineCol 1 1) (LineCol 1 16)).
Proof. vm_compute. reflexivity. Qed.

(** tests/test_abstract.rs test_abstract_infix_binary_at_quirk *)
Example rust_199_test_abstract_infix_binary_at_quirk : (rmap (fun p => strip (fst p)) (parse_cst default_opts true NotScript [84;105;109;101;115;64;97;47;98])) = Ok (Op KBinary BOP_Divide [(Op KBinary BOP_CodeParser_BinaryAt [(Tok (mktok TK_Symbol [] [84;105;109;101;115] (mkspan (LineCol 1 1) (LineCol 1 6)))); (Tok (mktok TK_At [] [64] (mkspan (LineCol 1 6) (LineCol 1 7)))); (Tok (mktok TK_Symbol [] [97] (mkspan (LineCol 1 7) (LineCol 1 8))))]); (Tok (mktok TK_Slash [] [47] (mkspan (LineCol 1 8) (LineCol 1 9)))); (Tok (mktok TK_Symbol [] [98] (mkspan (LineCol 1 9) (LineCol 1 10))))]).
Proof. vm_compute. reflexivity. Qed.

(** tests/test_abstract.rs test_abstract_infix_binary_at_quirk *)
Example rust_200_test_abstract_infix_binary_at_quirk_src : get_source (Op KBinary BOP_CodeParser_BinaryAt [(Tok (mktok TK_Symbol [] [84;105;109;101;115] (mkspan (LineCol 1 1) (LineCol 1 6)))); (Tok (mktok TK_At [] [64] (mkspan (LineCol 1 6) (LineCol 1 7)))); (Tok (mktok TK_Symbol [] [97] (mkspan (LineCol 1 7) (LineCol 1 8))))]) = Ok (mkspan (LineCol 1 1) (LineCol 1 8)).
Proof. vm_compute. reflexivity. Qed.

(** tests/test_abstract.rs test_abstract_infix_binary_at_quirk *)
Example rust_201_test_abstract_infix_binary_at_quirk_src : get_source (Op KBinary BOP_Divide [(Op KBinary BOP_CodeParser_BinaryAt [(Tok (mktok TK_Symbol [] [84;105;109;101;115] (mkspan (LineCol 1 1) (LineCol 1 6)))); (Tok (mktok TK_At [] [64] (mkspan (LineCol 1 6) (LineCol 1 7)))); (Tok (mktok TK_Symbol [] [97] (mkspan (LineCol 1 7) (LineCol 1 8))))]); (Tok (mktok TK_Slash [] [47] (mkspan (LineCol 1 8) (LineCol 1 9)))); (Tok (mktok TK_Symbol [] [98] (mkspan (LineCol 1 9) (LineCol 1 10))))]) = Ok (mkspan (LineCol 1 1) (LineCol 1 10)).
Proof. vm_compute. reflexivity. Qed.

(** tests/test_abstract.rs test_abstract_infix_binary_at_quirk *)
Example rust_202_test_abstract_infix_binary_at_quirk : (rmap (fun p => strip (fst p)) (parse_cst default_opts true NotScript [68;105;118;105;100;101;64;97;47;98])) = Ok (Op KBinary BOP_Divide [(Op KBinary BOP_CodeParser_BinaryAt [(Tok (mktok TK_Symbol [] [68;105;118;105;100;101] (mkspan (LineCol 1 1) (LineCol 1 7)))); (Tok (mktok TK_At [] [64] (mkspan (LineCol 1 7) (LineCol 1 8)))); (Tok (mktok TK_Symbol [] [97] (mkspan (LineCol 1 8) (LineCol 1 9))))]); (Tok (mktok TK_Slash [] [47] (mkspan (LineCol 1 9) (LineCol 1 10)))); (Tok (mktok TK_Symbol [] [98] (mkspan (LineCol 1 10) (LineCol 1 11))))]).
Proof. vm_compute. reflexivity. Qed.

(** tests/test_abstract.rs test_abstract_infix_binary_at_quirk *)
Example rust_203_test_abstract_infix_binary_at_quirk_src : get_source (Op KBinary BOP_CodeParser_BinaryAt [(Tok (mktok TK_Symbol [] [68;105;118;105;100;101] (mkspan (LineCol 1 1) (LineCol 1 7)))); (Tok (mktok TK_At [] [64] (mkspan (LineCol 1 7) (LineCol 1 8)))); (Tok (mktok TK_Symbol [] [97] (mkspan (LineCol 1 8) (LineCol 1 9))))]) = Ok (mkspan (LineCol 1 1) (LineCol 1 9)).
Proof. vm_compute. reflexivity. Qed.

(** tests/test_abstract.rs test_abstract_infix_binary_at_quirk *)
Example rust_204_test_abstract_infix_binary_at_quirk_src : get_source (Op KBinary BOP_Divide [(Op KBinary BOP_CodeParser_BinaryAt [(Tok (mktok TK_Symbol [] [68;105;118;105;100;101] (mkspan (LineCol 1 1) (LineCol 1 7)))); (Tok (mktok TK_At [] [64] (mkspan (LineCol 1 7) (LineCol 1 8)))); (Tok (mktok TK_Symbol [] [97] (mkspan (LineCol 1 8) (LineCol 1 9))))]); (Tok (mktok TK_Slash [] [47] (mkspan (LineCol 1 9) (LineCol 1 10)))); (Tok (mktok TK_Symbol [] [98] (mkspan (LineCol 1 10) (LineCol 1 11))))]) = Ok (mkspan (LineCol 1 1) (LineCol 1 11)).
Proof. vm_compute. reflexivity. Qed.

(** tests/test_abstract.rs test_abstract_flatten_times_combined_with_infix_binary_at_quirk *)
Example rust_205_test_abstract_flatten_times_combined_with_infix_binary_at_quirk : (rmap (fun p => strip (fst p)) (parse_cst default_opts true NotScript [97;32;42;32;84;105;109;101;115;32;64;32;45;98])) = Ok (Op KInfix IOP_Times [(Tok (mktok TK_Symbol [] [97] (mkspan (LineCol 1 1) (LineCol 1 2)))); (Tok (mktok TK_Whitespace [] [32] (mkspan (LineCol 1 2) (LineCol 1 3)))); (Tok (mktok TK_Star [] [42] (mkspan (LineCol 1 3) (LineCol 1 4)))); (Tok (mktok TK_Whitespace [] [32] (mkspan (LineCol 1 4) (LineCol 1 5)))); (Op KBinary BOP_CodeParser_BinaryAt [(Tok (mktok TK_Symbol [] [84;105;109;101;115] (mkspan (LineCol 1 5) (LineCol 1 10)))); (Tok (mktok TK_Whitespace [] [32] (mkspan (LineCol 1 10) (LineCol 1 11)))); (Tok (mktok TK_At [] [64] (mkspan (LineCol 1 11) (LineCol 1 12)))); (Tok (mktok TK_Whitespace [] [32] (mkspan (LineCol 1 12) (LineCol 1 13)))); (Op KPrefix PREOP_Minus [(Tok (mktok TK_Minus [] [45] (mkspan (LineCol 1 13) (LineCol 1 14)))); (Tok (mktok TK_Symbol [] [98] (mkspan (LineCol 1 14) (LineCol 1 15))))])])]).
Proof. vm_compute. reflexivity. Qed.

(** tests/test_abstract.rs test_abstract_flatten_times_combined_with_infix_binary_at_quirk *)
Example rust_206_test_abstract_flatten_times_combined_with_infix_binary_at_quirk_src : get_source (Op KPrefix PREOP_Minus [(Tok (mktok TK_Minus [] [45] (mkspan (LineCol 1 13) (LineCol 1 14)))); (Tok (mktok TK_Symbol [] [98] (mkspan (LineCol 1 14) (LineCol 1 15))))]) = Ok (mkspan (LineCol 1 13) (LineCol 1 15)).
Proof. vm_compute. reflexivity. Qed.

(** tests/test_abstract.rs test_abstract_flatten_times_combined_with_infix_binary_at_quirk *)
Example rust_207_test_abstract_flatten_times_combined_with_infix_binary_at_quirk_src : get_source (Op KBinary BOP_CodeParser_BinaryAt [(Tok (mktok TK_Symbol [] [84;105;109;101;115] (mkspan (LineCol 1 5) (LineCol 1 10)))); (Tok (mktok TK_Whitespace [] [32] (mkspan (LineCol 1 10) (LineCol 1 11)))); (Tok (mktok TK_At [] [64] (mkspan (LineCol 1 11) (LineCol 1 12)))); (Tok (mktok TK_Whitespace [] [32] (mkspan (LineCol 1 12) (LineCol 1 13)))); (Op KPrefix PREOP_Minus [(Tok (mktok TK_Minus [] [45] (mkspan (LineCol 1 13) (LineCol 1 14)))); (Tok (mktok TK_Symbol [] [98] (mkspan (LineCol 1 14) (LineCol 1 15))))])]) = Ok (mkspan (LineCol 1 5) (LineCol 1 15)).
Proof. vm_compute. reflexivity. Qed.

(** tests/test_abstract.rs test_abstract_flatten_times_combined_with_infix_binary_at_quirk *)
Example rust_208_test_abstract_flatten_times_combined_with_infix_binary_at_quirk_src : get_source (Op KInfix IOP_Times [(Tok (mktok TK_Symbol [] [97] (mkspan (LineCol 1 1) (LineCol 1 2)))); (Tok (mktok TK_Whitespace [] [32] (mkspan (LineCol 1 2) (LineCol 1 3)))); (Tok (mktok TK_Star [] [42] (mkspan (LineCol 1 3) (LineCol 1 4)))); (Tok (mktok TK_Whitespace [] [32] (mkspan (LineCol 1 4) (LineCol 1 5)))); (Op KBinary BOP_CodeParser_BinaryAt [(Tok (mktok TK_Symbol [] [84;105;109;101;115] (mkspan (LineCol 1 5) (LineCol 1 10)))); (Tok (mktok TK_Whitespace [] [32] (mkspan (LineCol 1 10) (LineCol 1 11)))); (Tok (mktok TK_At [] [64] (mkspan (LineCol 1 11) (LineCol 1 12)))); (Tok (mktok TK_Whitespace [] [32] (mkspan (LineCol 1 12) (LineCol 1 13)))); (Op KPrefix PREOP_Minus [(Tok (mktok TK_Minus [] [45] (mkspan (LineCol 1 13) (LineCol 1 14)))); (Tok (mktok TK_Symbol [] [98] (mkspan (LineCol 1 14) (LineCol 1 15))))])])]) = Ok (mkspan (LineCol 1 1) (LineCol 1 15)).
Proof. vm_compute. reflexivity. Qed.

(** tests/test_abstract.rs test_abstract_flatten_times_combined_with_infix_binary_at_quirk *)
Example rust_209_test_abstract_flatten_times_combined_with_infix_binary_at_quirk : (rbind (agg1 (rmap (fun p => strip (fst p)) (parse_cst default_opts true NotScript [97;32;42;32;84;105;109;101;115;32;64;32;45;98]))) (abstract_cst (mk_aopts true true true false quoted))) = Ok (ACall (ALeaf TK_Symbol [84;105;109;101;115] (mk_ameta Unknown [])) [(ALeaf TK_Symbol [97] (mk_ameta (Known (mkspan (LineCol 1 1) (LineCol 1 2))) [])); (ACall (ALeaf TK_Symbol [84;105;109;101;115] (mk_ameta Unknown [])) [(ALeaf TK_Integer [45;49] (mk_ameta Unknown [])); (ALeaf TK_Symbol [98] (mk_ameta (Known (mkspan (LineCol 1 14) (LineCol 1 15))) []))] (mk_ameta (Known (mkspan (LineCol 1 13) (LineCol 1 15))) []))] (mk_ameta (Known (mkspan (LineCol 1 1) (LineCol 1 15))) [])).
Proof. vm_compute. reflexivity. Qed.

(** tests/test_abstract.rs test_abstract_flatten_times_combined_with_infix_binary_at_quirk *)
Example rust_210_test_abstract_flatten_times_combined_with_infix_binary_at_quirk : (rbind (agg1 (rmap (fun p => strip (fst p)) (parse_cst default_opts true NotScript [97;32;42;32;84;105;109;101;115;32;64;32;45;98]))) (abstract_cst (mk_aopts true true false false quoted))) = Ok (ACall (ALeaf TK_Symbol [84;105;109;101;115] (mk_ameta Unknown [])) [(ALeaf TK_Symbol [97] (mk_ameta (Known (mkspan (LineCol 1 1) (LineCol 1 2))) [])); (ACall (ALeaf TK_Symbol [84;105;109;101;115] (mk_ameta Unknown [])) [(ALeaf TK_Integer [45;49] (mk_ameta Unknown [])); (ALeaf TK_Symbol [98] (mk_ameta (Known (mkspan (LineCol 1 14) (LineCol 1 15))) []))] (mk_ameta (Known (mkspan (LineCol 1 13) (LineCol 1 15))) []))] (mk_ameta (Known (mkspan (LineCol 1 1) (LineCol 1 15))) [])).
Proof. vm_compute. reflexivity. Qed.

(** tests/test_abstract.rs test_abstract_flatten_times_combined_with_infix_binary_at_quirk *)
Example rust_211_test_abstract_flatten_times_combined_with_infix_binary_at_quirk : (rbind (agg1 (rmap (fun p => strip (fst p)) (parse_cst default_opts true NotScript [97;32;42;32;84;105;109;101;115;32;64;32;45;98]))) (abstract_cst (mk_aopts true false true false quoted))) = Ok (ACall (ALeaf TK_Symbol [84;105;109;101;115] (mk_ameta Unknown [])) [(ALeaf TK_Symbol [97] (mk_ameta (Known (mkspan (LineCol 1 1) (LineCol 1 2))) [])); (ACall (ALeaf TK_Symbol [84;105;109;101;115] (mk_ameta (Known (mkspan (LineCol 1 5) (LineCol 1 10))) [])) [(ACall (ALeaf TK_Symbol [84;105;109;101;115] (mk_ameta Unknown [])) [(ALeaf TK_Integer [45;49] (mk_ameta Unknown [])); (ALeaf TK_Symbol [98] (mk_ameta (Known (mkspan (LineCol 1 14) (LineCol 1 15))) []))] (mk_ameta (Known (mkspan (LineCol 1 13) (LineCol 1 15))) []))] (mk_ameta (Known (mkspan (LineCol 1 5) (LineCol 1 15))) []))] (mk_ameta (Known (mkspan (LineCol 1 1) (LineCol 1 15))) [])).
Proof. vm_compute. reflexivity. Qed.

(** tests/test_abstract.rs test_abstract_flatten_times_combined_with_infix_binary_at_quirk *)
Example rust_212_test_abstract_flatten_times_combined_with_infix_binary_at_quirk : (rbind (agg1 (rmap (fun p => strip (fst p)) (parse_cst default_opts true NotScript [97;32;42;32;84;105;109;101;115;32;64;32;45;98]))) (abstract_cst (mk_aopts true false false false quoted))) = Ok (ACall (ALeaf TK_Symbol [84;105;109;101;115] (mk_ameta Unknown [])) [(ALeaf TK_Symbol [97] (mk_ameta (Known (mkspan (LineCol 1 1) (LineCol 1 2))) [])); (ACall (ALeaf TK_Symbol [84;105;109;101;115] (mk_ameta (Known (mkspan (LineCol 1 5) (LineCol 1 10))) [])) [(ACall (ALeaf TK_Symbol [84;105;109;101;115] (mk_ameta Unknown [])) [(ALeaf TK_Integer [45;49] (mk_ameta Unknown [])); (ALeaf TK_Symbol [98] (mk_ameta (Known (mkspan (LineCol 1 14) (LineCol 1 15))) []))] (mk_ameta (Known (mkspan (LineCol 1 13) (LineCol 1 15))) []))] (mk_ameta (Known (mkspan (LineCol 1 5) (LineCol 1 15))) []))] (mk_ameta (Known (mkspan (LineCol 1 1) (LineCol 1 15))) [])).
Proof. vm_compute. reflexivity. Qed.

(** tests/test_abstract.rs test_abstract_old_at_at_at_quirk *)
Example rust_213_test_abstract_old_at_at_at_quirk : (rmap (fun p => strip (fst p)) (parse_cst default_opts true NotScript [97;32;64;64;64;32;98])) = Ok (Op KBinary BOP_MapApply [(Tok (mktok TK_Symbol [] [97] (mkspan (LineCol 1 1) (LineCol 1 2)))); (Tok (mktok TK_Whitespace [] [32] (mkspan (LineCol 1 2) (LineCol 1 3)))); (Tok (mktok TK_AtAtAt [] [64;64;64] (mkspan (LineCol 1 3) (LineCol 1 6)))); (Tok (mktok TK_Whitespace [] [32] (mkspan (LineCol 1 6) (LineCol 1 7)))); (Tok (mktok TK_Symbol [] [98] (mkspan (LineCol 1 7) (LineCol 1 8))))]).
Proof. vm_compute. reflexivity. Qed.

(** tests/test_abstract.rs test_abstract_old_at_at_at_quirk *)
Example rust_214_test_abstract_old_at_at_at_quirk_src : get_source (Op KBinary BOP_MapApply [(Tok (mktok TK_Symbol [] [97] (mkspan (LineCol 1 1) (LineCol 1 2)))); (Tok (mktok TK_Whitespace [] [32] (mkspan (LineCol 1 2) (LineCol 1 3)))); (Tok (mktok TK_AtAtAt [] [64;64;64] (mkspan (LineCol 1 3) (LineCol 1 6)))); (Tok (mktok TK_Whitespace [] [32] (mkspan (LineCol 1 6) (LineCol 1 7)))); (Tok (mktok TK_Symbol [] [98] (mkspan (LineCol 1 7) (LineCol 1 8))))]) = Ok (mkspan (LineCol 1 1) (LineCol 1 8)).
Proof. vm_compute. reflexivity. Qed.

(** tests/test_abstract.rs test_abstract_old_at_at_at_quirk *)
Example rust_215_test_abstract_old_at_at_at_quirk : (rbind (agg1 (rmap (fun p => strip (fst p)) (parse_cst default_opts true NotScript [97;32;64;64;64;32;98]))) (abstract_cst (mk_aopts true true false false quoted))) = Ok (ACall (ALeaf TK_Symbol [77;97;112;65;112;112;108;121] (mk_ameta Unknown [])) [(ALeaf TK_Symbol [97] (mk_ameta (Known (mkspan (LineCol 1 1) (LineCol 1 2))) [])); (ALeaf TK_Symbol [98] (mk_ameta (Known (mkspan (LineCol 1 7) (LineCol 1 8))) []))] (mk_ameta (Known (mkspan (LineCol 1 1) (LineCol 1 8))) [])).
Proof. vm_compute. reflexivity. Qed.

(** tests/test_abstract.rs test_abstract_old_at_at_at_quirk *)
Example rust_216_test_abstract_old_at_at_at_quirk : (rbind (agg1 (rmap (fun p => strip (fst p)) (parse_cst default_opts true NotScript [97;32;64;64;64;32;98]))) (abstract_cst (mk_aopts true true false true quoted))) = Ok (ACall (ALeaf TK_Symbol [65;112;112;108;121] (mk_ameta Unknown [])) [(ALeaf TK_Symbol [97] (mk_ameta (Known (mkspan (LineCol 1 1) (LineCol 1 2))) [])); (ALeaf TK_Symbol [98] (mk_ameta (Known (mkspan (LineCol 1 7) (LineCol 1 8))) [])); (ACall (ALeaf TK_Symbol [76;105;115;116] (mk_ameta Unknown [])) [(ALeaf TK_Integer [49] (mk_ameta Unknown []))] (mk_ameta Unknown []))] (mk_ameta (Known (mkspan (LineCol 1 1) (LineCol 1 8))) [])).
Proof. vm_compute. reflexivity. Qed.

(** tests/test_abstract.rs test_abstract_plus *)
Example rust_217_test_abstract_plus : (agg1 (rmap (fun p => strip (fst p)) (parse_cst default_opts true NotScript [43;97;32;43;32;98;32;45;32;99;32;92;91;73;109;112;108;105;99;105;116;80;108;117;115;93;32;100]))) = Ok (Op KInfix IOP_Plus [(Op KPrefix PREOP_Plus [(Tok (mktok TK_Plus [] [43] (mkspan (LineCol 1 1) (LineCol 1 2)))); (Tok (mktok TK_Symbol [] [97] (mkspan (LineCol 1 2) (LineCol 1 3))))]); (Tok (mktok TK_Plus [] [43] (mkspan (LineCol 1 4) (LineCol 1 5)))); (Tok (mktok TK_Symbol [] [98] (mkspan (LineCol 1 6) (LineCol 1 7)))); (Tok (mktok TK_Minus [] [45] (mkspan (LineCol 1 8) (LineCol 1 9)))); (Op KInfix IOP_Plus [(Tok (mktok TK_Symbol [] [99] (mkspan (LineCol 1 10) (LineCol 1 11)))); (Tok (mktok TK_LongName_ImplicitPlus [] [92;91;73;109;112;108;105;99;105;116;80;108;117;115;93] (mkspan (LineCol 1 12) (LineCol 1 27)))); (Tok (mktok TK_Symbol [] [100] (mkspan (LineCol 1 28) (LineCol 1 29))))])]).
Proof. vm_compute. reflexivity. Qed.

(** tests/test_abstract.rs test_abstract_plus *)
Example rust_218_test_abstract_plus_src : get_source (Op KPrefix PREOP_Plus [(Tok (mktok TK_Plus [] [43] (mkspan (LineCol 1 1) (LineCol 1 2)))); (Tok (mktok TK_Symbol [] [97] (mkspan (LineCol 1 2) (LineCol 1 3))))]) = Ok (mkspan (LineCol 1 1) (LineCol 1 3)).
Proof. vm_compute. reflexivity. Qed.

(** tests/test_abstract.rs test_abstract_plus *)
Example rust_219_test_abstract_plus_src : get_source (Op KInfix IOP_Plus [(Tok (mktok TK_Symbol [] [99] (mkspan (LineCol 1 10) (LineCol 1 11)))); (Tok (mktok TK_LongName_ImplicitPlus [] [92;91;73;109;112;108;105;99;105;116;80;108;117;115;93] (mkspan (LineCol 1 12) (LineCol 1 27)))); (Tok (mktok TK_Symbol [] [100] (mkspan (LineCol 1 28) (LineCol 1 29))))]) = Ok (mkspan (LineCol 1 10) (LineCol 1 29)).
Proof. vm_compute. reflexivity. Qed.

(** tests/test_abstract.rs test_abstract_plus *)
Example rust_220_test_abstract_plus_src : get_source (Op KInfix IOP_Plus [(Op KPrefix PREOP_Plus [(Tok (mktok TK_Plus [] [43] (mkspan (LineCol 1 1) (LineCol 1 2)))); (Tok (mktok TK_Symbol [] [97] (mkspan (LineCol 1 2) (LineCol 1 3))))]); (Tok (mktok TK_Plus [] [43] (mkspan (LineCol 1 4) (LineCol 1 5)))); (Tok (mktok TK_Symbol [] [98] (mkspan (LineCol 1 6) (LineCol 1 7)))); (Tok (mktok TK_Minus [] [45] (mkspan (LineCol 1 8) (LineCol 1 9)))); (Op KInfix IOP_Plus [(Tok (mktok TK_Symbol [] [99] (mkspan (LineCol 1 10) (LineCol 1 11)))); (Tok (mktok TK_LongName_ImplicitPlus [] [92;91;73;109;112;108;105;99;105;116;80;108;117;115;93] (mkspan (LineCol 1 12) (LineCol 1 27)))); (Tok (mktok TK_Symbol [] [100] (mkspan (LineCol 1 28) (LineCol 1 29))))])]) = Ok (mkspan (LineCol 1 1) (LineCol 1 29)).
Proof. vm_compute. reflexivity. Qed.

(** tests/test_abstract.rs test_abstract_plus *)
Example rust_221_test_abstract_plus : (rbind (agg1 (rmap (fun p => strip (fst p)) (parse_cst default_opts true NotScript [43;97;32;43;32;98;32;45;32;99;32;92;91;73;109;112;108;105;99;105;116;80;108;117;115;93;32;100]))) (abstract_cst (mk_aopts true true false false quoted))) = Ok (ACall (ALeaf TK_Symbol [80;108;117;115] (mk_ameta Unknown [])) [(ALeaf TK_Symbol [97] (mk_ameta (Known (mkspan (LineCol 1 2) (LineCol 1 3))) [])); (ALeaf TK_Symbol [98] (mk_ameta (Known (mkspan (LineCol 1 6) (LineCol 1 7))) [])); (ACall (ALeaf TK_Symbol [84;105;109;101;115] (mk_ameta Unknown [])) [(ALeaf TK_Integer [45;49] (mk_ameta Unknown [])); (ACall (ALeaf TK_Symbol [80;108;117;115] (mk_ameta Unknown [])) [(ALeaf TK_Symbol [99] (mk_ameta (Known (mkspan (LineCol 1 10) (LineCol 1 11))) [])); (ALeaf TK_Symbol [100] (mk_ameta (Known (mkspan (LineCol 1 28) (LineCol 1 29))) []))] (mk_ameta (Known (mkspan (LineCol 1 10) (LineCol 1 29))) []))] (mk_ameta (Known (mkspan (LineCol 1 8) (LineCol 1 29))) []))] (mk_ameta (Known (mkspan (LineCol 1 1) (LineCol 1 29))) [])).
Proof. vm_compute. reflexivity. Qed.

(** tests/test_abstract.rs test_abstract_call *)
Example rust_222_test_abstract_call : (rmap (fun p => strip (fst p)) (parse_cst default_opts true NotScript [102;91;91;120;93;93])) = Ok (Call (Concrete [(Tok (mktok TK_Symbol [] [102] (mkspan (LineCol 1 1) (LineCol 1 2))))]) false CALLOP_CodeParser_GroupSquare [(Tok (mktok TK_OpenSquare [] [91] (mkspan (LineCol 1 2) (LineCol 1 3)))); (Op KGroup GOP_CodeParser_GroupSquare [(Tok (mktok TK_OpenSquare [] [91] (mkspan (LineCol 1 3) (LineCol 1 4)))); (Tok (mktok TK_Symbol [] [120] (mkspan (LineCol 1 4) (LineCol 1 5)))); (Tok (mktok TK_CloseSquare [] [93] (mkspan (LineCol 1 5) (LineCol 1 6))))]); (Tok (mktok TK_CloseSquare [] [93] (mkspan (LineCol 1 6) (LineCol 1 7))))]).
Proof. vm_compute. reflexivity. Qed.

(** tests/test_abstract.rs test_abstract_call *)
Example rust_223_test_abstract_call : (rbind (agg1 (rmap (fun p => strip (fst p)) (parse_cst default_opts true NotScript [102;91;91;120;93;93]))) (abstract_cst (mk_aopts true true false false quoted))) = Ok (ACall (ALeaf TK_Symbol [80;97;114;116] (mk_ameta Unknown [])) [(ALeaf TK_Symbol [102] (mk_ameta (Known (mkspan (LineCol 1 1) (LineCol 1 2))) [])); (ALeaf TK_Symbol [120] (mk_ameta (Known (mkspan (LineCol 1 4) (LineCol 1 5))) []))] (mk_ameta (Known (mkspan (LineCol 1 1) (LineCol 1 7))) [])).
Proof. vm_compute. reflexivity. Qed.

(** tests/test_abstract.rs test_abstract_call *)
Example rust_224_test_abstract_call : (rmap (fun p => strip (fst p)) (parse_cst default_opts true NotScript [35;35;50;91;97;114;103;93])) = Ok (Call (Concrete [(Op KCompound COP_SlotSequence [(Tok (mktok TK_HashHash [] [35;35] (mkspan (LineCol 1 1) (LineCol 1 3)))); (Tok (mktok TK_Integer [] [50] (mkspan (LineCol 1 3) (LineCol 1 4))))])]) false CALLOP_CodeParser_GroupSquare [(Tok (mktok TK_OpenSquare [] [91] (mkspan (LineCol 1 4) (LineCol 1 5)))); (Tok (mktok TK_Symbol [] [97;114;103] (mkspan (LineCol 1 5) (LineCol 1 8)))); (Tok (mktok TK_CloseSquare [] [93] (mkspan (LineCol 1 8) (LineCol 1 9))))]).
Proof. vm_compute. reflexivity. Qed.

(** tests/test_abstract.rs test_abstract_call *)
Example rust_225_test_abstract_call : (rmap (fun p => strip (fst p)) (parse_cst default_opts true NotScript [34;102;111;111;34;58;58;91;97;114;103;93])) = Ok (Call (Concrete [(Tok (mktok TK_String [] [34;102;111;111;34] (mkspan (LineCol 1 1) (LineCol 1 6))))]) false CALLOP_CodeParser_GroupTypeSpecifier [(Tok (mktok TK_ColonColonOpenSquare [] [58;58;91] (mkspan (LineCol 1 6) (LineCol 1 9)))); (Tok (mktok TK_Symbol [] [97;114;103] (mkspan (LineCol 1 9) (LineCol 1 12)))); (Tok (mktok TK_CloseSquare [] [93] (mkspan (LineCol 1 12) (LineCol 1 13))))]).
Proof. vm_compute. reflexivity. Qed.

(** tests/test_abstract.rs test_abstract_call *)
Example rust_226_test_abstract_call : (rbind (agg1 (rmap (fun p => strip (fst p)) (parse_cst default_opts true NotScript [34;102;111;111;34;58;58;91;97;114;103;93]))) (abstract_cst (mk_aopts true true false false quoted))) = Ok (ACall (ACall (ALeaf TK_Symbol [84;121;112;101;83;112;101;99;105;102;105;101;114] (mk_ameta Unknown [])) [(ALeaf TK_String [34;102;111;111;34] (mk_ameta (Known (mkspan (LineCol 1 1) (LineCol 1 6))) []))] (mk_ameta Unknown [])) [(ALeaf TK_Symbol [97;114;103] (mk_ameta (Known (mkspan (LineCol 1 9) (LineCol 1 12))) []))] (mk_ameta (Known (mkspan (LineCol 1 1) (LineCol 1 13))) [])).
Proof. vm_compute. reflexivity. Qed.

(** tests/test_abstract.rs test_abstract_call *)
Example rust_227_test_abstract_call : (rmap (fun p => strip (fst p)) (parse_cst default_opts true NotScript [97;92;91;76;101;102;116;68;111;117;98;108;101;66;114;97;99;107;101;116;93;50;92;91;82;105;103;104;116;68;111;117;98;108;101;66;114;97;99;107;101;116;93])) = Ok (Call (Concrete [(Tok (mktok TK_Symbol [] [97] (mkspan (LineCol 1 1) (LineCol 1 2))))]) false CALLOP_CodeParser_GroupDoubleBracket [(Tok (mktok TK_LongName_LeftDoubleBracket [] [92;91;76;101;102;116;68;111;117;98;108;101;66;114;97;99;107;101;116;93] (mkspan (LineCol 1 2) (LineCol 1 22)))); (Tok (mktok TK_Integer [] [50] (mkspan (LineCol 1 22) (LineCol 1 23)))); (Tok (mktok TK_LongName_RightDoubleBracket [] [92;91;82;105;103;104;116;68;111;117;98;108;101;66;114;97;99;107;101;116;93] (mkspan (LineCol 1 23) (LineCol 1 44))))]).
Proof. vm_compute. reflexivity. Qed.

(** tests/test_abstract.rs test_abstract_call *)
Example rust_228_test_abstract_call : (rbind (agg1 (rmap (fun p => strip (fst p)) (parse_cst default_opts true NotScript [97;92;91;76;101;102;116;68;111;117;98;108;101;66;114;97;99;107;101;116;93;50;92;91;82;105;103;104;116;68;111;117;98;108;101;66;114;97;99;107;101;116;93]))) (abstract_cst (mk_aopts true true false false quoted))) = Ok (ACall (ALeaf TK_Symbol [80;97;114;116] (mk_ameta Unknown [])) [(ALeaf TK_Symbol [97] (mk_ameta (Known (mkspan (LineCol 1 1) (LineCol 1 2))) [])); (ALeaf TK_Integer [50] (mk_ameta (Known (mkspan (LineCol 1 22) (LineCol 1 23))) []))] (mk_ameta (Known (mkspan (LineCol 1 1) (LineCol 1 44))) [])).
Proof. vm_compute. reflexivity. Qed.

(** tests/test_abstract.rs test_abstract_call *)
Example rust_229_test_abstract_call : (rmap (fun p => strip (fst p)) (parse_cst default_opts true NotScript [97;92;91;76;101;102;116;68;111;117;98;108;101;66;114;97;99;107;101;116;93;49;44;32;50;44;32;51;92;91;82;105;103;104;116;68;111;117;98;108;101;66;114;97;99;107;101;116;93])) = Ok (Call (Concrete [(Tok (mktok TK_Symbol [] [97] (mkspan (LineCol 1 1) (LineCol 1 2))))]) false CALLOP_CodeParser_GroupDoubleBracket [(Tok (mktok TK_LongName_LeftDoubleBracket [] [92;91;76;101;102;116;68;111;117;98;108;101;66;114;97;99;107;101;116;93] (mkspan (LineCol 1 2) (LineCol 1 22)))); (Op KInfix IOP_CodeParser_Comma [(Tok (mktok TK_Integer [] [49] (mkspan (LineCol 1 22) (LineCol 1 23)))); (Tok (mktok TK_Comma [] [44] (mkspan (LineCol 1 23) (LineCol 1 24)))); (Tok (mktok TK_Whitespace [] [32] (mkspan (LineCol 1 24) (LineCol 1 25)))); (Tok (mktok TK_Integer [] [50] (mkspan (LineCol 1 25) (LineCol 1 26)))); (Tok (mktok TK_Comma [] [44] (mkspan (LineCol 1 26) (LineCol 1 27)))); (Tok (mktok TK_Whitespace [] [32] (mkspan (LineCol 1 27) (LineCol 1 28)))); (Tok (mktok TK_Integer [] [51] (mkspan (LineCol 1 28) (LineCol 1 29))))]); (Tok (mktok TK_LongName_RightDoubleBracket [] [92;91;82;105;103;104;116;68;111;117;98;108;101;66;114;97;99;107;101;116;93] (mkspan (LineCol 1 29) (LineCol 1 50))))]).
Proof. vm_compute. reflexivity. Qed.

(** tests/test_abstract.rs test_abstract_call *)
Example rust_230_test_abstract_call : (rbind (agg1 (rmap (fun p => strip (fst p)) (parse_cst default_opts true NotScript [97;92;91;76;101;102;116;68;111;117;98;108;101;66;114;97;99;107;101;116;93;49;44;32;50;44;32;51;92;91;82;105;103;104;116;68;111;117;98;108;101;66;114;97;99;107;101;116;93]))) (abstract_cst (mk_aopts true true false false quoted))) = Ok (ACall (ALeaf TK_Symbol [80;97;114;116] (mk_ameta Unknown [])) [(ALeaf TK_Symbol [97] (mk_ameta (Known (mkspan (LineCol 1 1) (LineCol 1 2))) [])); (ALeaf TK_Integer [49] (mk_ameta (Known (mkspan (LineCol 1 22) (LineCol 1 23))) [])); (ALeaf TK_Integer [50] (mk_ameta (Known (mkspan (LineCol 1 25) (LineCol 1 26))) [])); (ALeaf TK_Integer [51] (mk_ameta (Known (mkspan (LineCol 1 28) (LineCol 1 29))) []))] (mk_ameta (Known (mkspan (LineCol 1 1) (LineCol 1 50))) [])).
Proof. vm_compute. reflexivity. Qed.

(** tests/test_token_errors.rs test_prefix_expected_file_and_operand_errors *)
Example rust_231_test_prefix_expected_file_and_operand_errors : (rmap (fun p => strip (fst p)) (parse_cst default_opts true NotScript [60;60])) = Ok (Op KPrefix PREOP_Get [(Tok (mktok TK_LessLess [] [60;60] (mkspan (LineCol 1 1) (LineCol 1 3)))); (Tok (mktok TK_Error_ExpectedFile [] [] (mkspan (LineCol 1 3) (LineCol 1 3))))]).
Proof. vm_compute. reflexivity. Qed.

(** tests/test_token_errors.rs test_prefix_expected_file_and_operand_errors *)
Example rust_232_test_prefix_expected_file_and_operand_errors_src : get_source (Op KPrefix PREOP_Get [(Tok (mktok TK_LessLess [] [60;60] (mkspan (LineCol 1 1) (LineCol 1 3)))); (Tok (mktok TK_Error_ExpectedFile [] [] (mkspan (LineCol 1 3) (LineCol 1 3))))]) = Ok (mkspan (LineCol 1 1) (LineCol 1 3)).
Proof. vm_compute. reflexivity. Qed.

(** tests/test_token_errors.rs test_prefix_expected_file_and_operand_errors *)
Example rust_233_test_prefix_expected_file_and_operand_errors : (rmap (fun p => strip (fst p)) (parse_cst default_opts true NotScript [60;60;60])) = Ok (Op KInfix IOP_CodeParser_InfixInequality [(Op KPrefix PREOP_Get [(Tok (mktok TK_LessLess [] [60;60] (mkspan (LineCol 1 1) (LineCol 1 3)))); (Tok (mktok TK_Error_ExpectedFile [] [] (mkspan (LineCol 1 3) (LineCol 1 3))))]); (Tok (mktok TK_Less [] [60] (mkspan (LineCol 1 3) (LineCol 1 4)))); (Tok (mktok TK_Error_ExpectedOperand [] [] (mkspan (LineCol 1 4) (LineCol 1 4))))]).
Proof. vm_compute. reflexivity. Qed.

(** tests/test_token_errors.rs test_prefix_expected_file_and_operand_errors *)
Example rust_234_test_prefix_expected_file_and_operand_errors_src : get_source (Op KPrefix PREOP_Get [(Tok (mktok TK_LessLess [] [60;60] (mkspan (LineCol 1 1) (LineCol 1 3)))); (Tok (mktok TK_Error_ExpectedFile [] [] (mkspan (LineCol 1 3) (LineCol 1 3))))]) = Ok (mkspan (LineCol 1 1) (LineCol 1 3)).
Proof. vm_compute. reflexivity. Qed.

(** tests/test_token_errors.rs test_prefix_expected_file_and_operand_errors *)
Example rust_235_test_prefix_expected_file_and_operand_errors_src : get_source (Op KInfix IOP_CodeParser_InfixInequality [(Op KPrefix PREOP_Get [(Tok (mktok TK_LessLess [] [60;60] (mkspan (LineCol 1 1) (LineCol 1 3)))); (Tok (mktok TK_Error_ExpectedFile [] [] (mkspan (LineCol 1 3) (LineCol 1 3))))]); (Tok (mktok TK_Less [] [60] (mkspan (LineCol 1 3) (LineCol 1 4)))); (Tok (mktok TK_Error_ExpectedOperand [] [] (mkspan (LineCol 1 4) (LineCol 1 4))))]) = Ok (mkspan (LineCol 1 1) (LineCol 1 4)).
Proof. vm_compute. reflexivity. Qed.

(** tests/test_token_errors.rs test_missing_tag_and_missing_operand *)
Example rust_236_test_missing_tag_and_missing_operand : (rmap (fun p => strip (fst p)) (parse_cst default_opts true NotScript [97;58;58;60])) = Ok (Op KInfix IOP_CodeParser_InfixInequality [(Op KInfix IOP_MessageName [(Tok (mktok TK_Symbol [] [97] (mkspan (LineCol 1 1) (LineCol 1 2)))); (Tok (mktok TK_ColonColon [] [58;58] (mkspan (LineCol 1 2) (LineCol 1 4)))); (Tok (mktok TK_Error_ExpectedTag [] [] (mkspan (LineCol 1 4) (LineCol 1 4))))]); (Tok (mktok TK_Less [] [60] (mkspan (LineCol 1 4) (LineCol 1 5)))); (Tok (mktok TK_Error_ExpectedOperand [] [] (mkspan (LineCol 1 5) (LineCol 1 5))))]).
Proof. vm_compute. reflexivity. Qed.

(** tests/test_token_errors.rs test_missing_tag_and_missing_operand *)
Example rust_237_test_missing_tag_and_missing_operand_src : get_source (Op KInfix IOP_MessageName [(Tok (mktok TK_Symbol [] [97] (mkspan (LineCol 1 1) (LineCol 1 2)))); (Tok (mktok TK_ColonColon [] [58;58] (mkspan (LineCol 1 2) (LineCol 1 4)))); (Tok (mktok TK_Error_ExpectedTag [] [] (mkspan (LineCol 1 4) (LineCol 1 4))))]) = Ok (mkspan (LineCol 1 1) (LineCol 1 4)).
Proof. vm_compute. reflexivity. Qed.

(** tests/test_token_errors.rs test_missing_tag_and_missing_operand *)
Example rust_238_test_missing_tag_and_missing_operand_src : get_source (Op KInfix IOP_CodeParser_InfixInequality [(Op KInfix IOP_MessageName [(Tok (mktok TK_Symbol [] [97] (mkspan (LineCol 1 1) (LineCol 1 2)))); (Tok (mktok TK_ColonColon [] [58;58] (mkspan (LineCol 1 2) (LineCol 1 4)))); (Tok (mktok TK_Error_ExpectedTag [] [] (mkspan (LineCol 1 4) (LineCol 1 4))))]); (Tok (mktok TK_Less [] [60] (mkspan (LineCol 1 4) (LineCol 1 5)))); (Tok (mktok TK_Error_ExpectedOperand [] [] (mkspan (LineCol 1 5) (LineCol 1 5))))]) = Ok (mkspan (LineCol 1 1) (LineCol 1 5)).
Proof. vm_compute. reflexivity. Qed.

(** tests/test_token_errors.rs test_expected_letterlike_after_blank *)
Example rust_239_test_expected_letterlike_after_blank : (rmap (fun p => strip (fst p)) (parse_cst default_opts true NotScript [95;97;96])) = Ok (Op KCompound COP_Blank [(Tok (mktok TK_Under [] [95] (mkspan (LineCol 1 1) (LineCol 1 2)))); (Tok (mktok TK_Error_ExpectedLetterlike [] [97;96] (mkspan (LineCol 1 2) (LineCol 1 4))))]).
Proof. vm_compute. reflexivity. Qed.

(** tests/test_token_errors.rs test_expected_letterlike_after_blank *)
Example rust_240_test_expected_letterlike_after_blank_src : get_source (Op KCompound COP_Blank [(Tok (mktok TK_Under [] [95] (mkspan (LineCol 1 1) (LineCol 1 2)))); (Tok (mktok TK_Error_ExpectedLetterlike [] [97;96] (mkspan (LineCol 1 2) (LineCol 1 4))))]) = Ok (mkspan (LineCol 1 1) (LineCol 1 4)).
Proof. vm_compute. reflexivity. Qed.

(** tests/test_token_errors.rs test_expected_letterlike_after_blank *)
Example rust_241_test_expected_letterlike_after_blank : (rmap (fun p => strip (fst p)) (parse_cst default_opts true NotScript [97;95;98;96])) = Ok (Op KCompound COP_CodeParser_PatternBlank [(Tok (mktok TK_Symbol [] [97] (mkspan (LineCol 1 1) (LineCol 1 2)))); (Op KCompound COP_Blank [(Tok (mktok TK_Under [] [95] (mkspan (LineCol 1 2) (LineCol 1 3)))); (Tok (mktok TK_Error_ExpectedLetterlike [] [98;96] (mkspan (LineCol 1 3) (LineCol 1 5))))])]).
Proof. vm_compute. reflexivity. Qed.

(** tests/test_token_errors.rs test_expected_letterlike_after_blank *)
Example rust_242_test_expected_letterlike_after_blank_src : get_source (Op KCompound COP_Blank [(Tok (mktok TK_Under [] [95] (mkspan (LineCol 1 2) (LineCol 1 3)))); (Tok (mktok TK_Error_ExpectedLetterlike [] [98;96] (mkspan (LineCol 1 3) (LineCol 1 5))))]) = Ok (mkspan (LineCol 1 2) (LineCol 1 5)).
Proof. vm_compute. reflexivity. Qed.

(** tests/test_token_errors.rs test_expected_letterlike_after_blank *)
Example rust_243_test_expected_letterlike_after_blank_src : get_source (Op KCompound COP_CodeParser_PatternBlank [(Tok (mktok TK_Symbol [] [97] (mkspan (LineCol 1 1) (LineCol 1 2)))); (Op KCompound COP_Blank [(Tok (mktok TK_Under [] [95] (mkspan (LineCol 1 2) (LineCol 1 3)))); (Tok (mktok TK_Error_ExpectedLetterlike [] [98;96] (mkspan (LineCol 1 3) (LineCol 1 5))))])]) = Ok (mkspan (LineCol 1 1) (LineCol 1 5)).
Proof. vm_compute. reflexivity. Qed.

(** tests/test_token_errors.rs test_prefix_comma_errors *)
Example rust_244_test_prefix_comma_errors : (rmap (fun p => strip (fst p)) (parse_cst default_opts true NotScript [102;91;97;64;44;50;93])) = Ok (Call (Concrete [(Tok (mktok TK_Symbol [] [102] (mkspan (LineCol 1 1) (LineCol 1 2))))]) false CALLOP_CodeParser_GroupSquare [(Tok (mktok TK_OpenSquare [] [91] (mkspan (LineCol 1 2) (LineCol 1 3)))); (Op KInfix IOP_CodeParser_Comma [(Op KBinary BOP_CodeParser_BinaryAt [(Tok (mktok TK_Symbol [] [97] (mkspan (LineCol 1 3) (LineCol 1 4)))); (Tok (mktok TK_At [] [64] (mkspan (LineCol 1 4) (LineCol 1 5)))); (Tok (mktok TK_Error_ExpectedOperand [] [] (mkspan (LineCol 1 5) (LineCol 1 5))))]); (Tok (mktok TK_Comma [] [44] (mkspan (LineCol 1 5) (LineCol 1 6)))); (Tok (mktok TK_Integer [] [50] (mkspan (LineCol 1 6) (LineCol 1 7))))]); (Tok (mktok TK_CloseSquare [] [93] (mkspan (LineCol 1 7) (LineCol 1 8))))]).
Proof. vm_compute. reflexivity. Qed.

(** tests/test_token_errors.rs test_prefix_comma_errors *)
Example rust_245_test_prefix_comma_errors_src : get_source (Op KBinary BOP_CodeParser_BinaryAt [(Tok (mktok TK_Symbol [] [97] (mkspan (LineCol 1 3) (LineCol 1 4)))); (Tok (mktok TK_At [] [64] (mkspan (LineCol 1 4) (LineCol 1 5)))); (Tok (mktok TK_Error_ExpectedOperand [] [] (mkspan (LineCol 1 5) (LineCol 1 5))))]) = Ok (mkspan (LineCol 1 3) (LineCol 1 5)).
Proof. vm_compute. reflexivity. Qed.

(** tests/test_token_errors.rs test_prefix_comma_errors *)
Example rust_246_test_prefix_comma_errors_src : get_source (Op KInfix IOP_CodeParser_Comma [(Op KBinary BOP_CodeParser_BinaryAt [(Tok (mktok TK_Symbol [] [97] (mkspan (LineCol 1 3) (LineCol 1 4)))); (Tok (mktok TK_At [] [64] (mkspan (LineCol 1 4) (LineCol 1 5)))); (Tok (mktok TK_Error_ExpectedOperand [] [] (mkspan (LineCol 1 5) (LineCol 1 5))))]); (Tok (mktok TK_Comma [] [44] (mkspan (LineCol 1 5) (LineCol 1 6)))); (Tok (mktok TK_Integer [] [50] (mkspan (LineCol 1 6) (LineCol 1 7))))]) = Ok (mkspan (LineCol 1 3) (LineCol 1 7)).
Proof. vm_compute. reflexivity. Qed.

(** tests/test_token_errors.rs test_prefix_comma_errors *)
Example rust_247_test_prefix_comma_errors_src : get_source (Call (Concrete [(Tok (mktok TK_Symbol [] [102] (mkspan (LineCol 1 1) (LineCol 1 2))))]) false CALLOP_CodeParser_GroupSquare [(Tok (mktok TK_OpenSquare [] [91] (mkspan (LineCol 1 2) (LineCol 1 3)))); (Op KInfix IOP_CodeParser_Comma [(Op KBinary BOP_CodeParser_BinaryAt [(Tok (mktok TK_Symbol [] [97] (mkspan (LineCol 1 3) (LineCol 1 4)))); (Tok (mktok TK_At [] [64] (mkspan (LineCol 1 4) (LineCol 1 5)))); (Tok (mktok TK_Error_ExpectedOperand [] [] (mkspan (LineCol 1 5) (LineCol 1 5))))]); (Tok (mktok TK_Comma [] [44] (mkspan (LineCol 1 5) (LineCol 1 6)))); (Tok (mktok TK_Integer [] [50] (mkspan (LineCol 1 6) (LineCol 1 7))))]); (Tok (mktok TK_CloseSquare [] [93] (mkspan (LineCol 1 7) (LineCol 1 8))))]) = Ok (mkspan (LineCol 1 1) (LineCol 1 8)).
Proof. vm_compute. reflexivity. Qed.

(** tests/test_token_errors.rs test_prefix_comma_errors *)
Example rust_248_test_prefix_comma_errors : (rmap (fun p => strip (fst p)) (parse_cst default_opts true NotScript [102;91;44;50;93])) = Ok (Call (Concrete [(Tok (mktok TK_Symbol [] [102] (mkspan (LineCol 1 1) (LineCol 1 2))))]) false CALLOP_CodeParser_GroupSquare [(Tok (mktok TK_OpenSquare [] [91] (mkspan (LineCol 1 2) (LineCol 1 3)))); (Op KInfix IOP_CodeParser_Comma [(Tok (mktok TK_Error_PrefixImplicitNull [] [] (mkspan (LineCol 1 3) (LineCol 1 3)))); (Tok (mktok TK_Comma [] [44] (mkspan (LineCol 1 3) (LineCol 1 4)))); (Tok (mktok TK_Integer [] [50] (mkspan (LineCol 1 4) (LineCol 1 5))))]); (Tok (mktok TK_CloseSquare [] [93] (mkspan (LineCol 1 5) (LineCol 1 6))))]).
Proof. vm_compute. reflexivity. Qed.

(** tests/test_token_errors.rs test_prefix_comma_errors *)
Example rust_249_test_prefix_comma_errors_src : get_source (Op KInfix IOP_CodeParser_Comma [(Tok (mktok TK_Error_PrefixImplicitNull [] [] (mkspan (LineCol 1 3) (LineCol 1 3)))); (Tok (mktok TK_Comma [] [44] (mkspan (LineCol 1 3) (LineCol 1 4)))); (Tok (mktok TK_Integer [] [50] (mkspan (LineCol 1 4) (LineCol 1 5))))]) = Ok (mkspan (LineCol 1 3) (LineCol 1 5)).
Proof. vm_compute. reflexivity. Qed.

(** tests/test_token_errors.rs test_prefix_comma_errors *)
Example rust_250_test_prefix_comma_errors_src : get_source (Call (Concrete [(Tok (mktok TK_Symbol [] [102] (mkspan (LineCol 1 1) (LineCol 1 2))))]) false CALLOP_CodeParser_GroupSquare [(Tok (mktok TK_OpenSquare [] [91] (mkspan (LineCol 1 2) (LineCol 1 3)))); (Op KInfix IOP_CodeParser_Comma [(Tok (mktok TK_Error_PrefixImplicitNull [] [] (mkspan (LineCol 1 3) (LineCol 1 3)))); (Tok (mktok TK_Comma [] [44] (mkspan (LineCol 1 3) (LineCol 1 4)))); (Tok (mktok TK_Integer [] [50] (mkspan (LineCol 1 4) (LineCol 1 5))))]); (Tok (mktok TK_CloseSquare [] [93] (mkspan (LineCol 1 5) (LineCol 1 6))))]) = Ok (mkspan (LineCol 1 1) (LineCol 1 6)).
Proof. vm_compute. reflexivity. Qed.

(** tests/test_crashers.rs CrashTest_Crash1 *)
Example rust_251_CrashTest_Crash1 : (rmap (fun p => strip (fst p)) (parse_cst default_opts true NotScript [49;58;58;42;92;13;10])) = Ok (Op KInfix IOP_Times [(Op KInfix IOP_MessageName [(Tok (mktok TK_Integer [] [49] (mkspan (LineCol 1 1) (LineCol 1 2)))); (Tok (mktok TK_ColonColon [] [58;58] (mkspan (LineCol 1 2) (LineCol 1 4)))); (Tok (mktok TK_Error_ExpectedTag [] [] (mkspan (LineCol 1 4) (LineCol 1 4))))]); (Tok (mktok TK_Star [] [42] (mkspan (LineCol 1 4) (LineCol 1 5)))); (Tok (mktok TK_Error_ExpectedOperand [] [] (mkspan (LineCol 1 5) (LineCol 1 5))))]).
Proof. vm_compute. reflexivity. Qed.

(** tests/test_crashers.rs CrashTest_Crash2 *)
Example rust_252_CrashTest_Crash2 : (rmap (fun p => strip (fst p)) (parse_cst default_opts true NotScript [92;58;102;101;102;102])) = Ok (Tok (mktok TK_Symbol [] [92;58;102;101;102;102] (mkspan (LineCol 1 1) (LineCol 1 7)))).
Proof. vm_compute. reflexivity. Qed.

(** tests/test_crashers.rs CrashTest_Crash3 *)
Example rust_253_CrashTest_Crash3 : (rmap (fun p => strip (fst p)) (parse_cst default_opts true NotScript [97;58;98;126;49;58;50])) = Ok (Op KBinary BOP_Optional [(Op KBinary BOP_Pattern [(Tok (mktok TK_Symbol [] [97] (mkspan (LineCol 1 1) (LineCol 1 2)))); (Tok (mktok TK_Colon [] [58] (mkspan (LineCol 1 2) (LineCol 1 3)))); (SynErr ExpectedTilde [(Tok (mktok TK_Symbol [] [98] (mkspan (LineCol 1 3) (LineCol 1 4)))); (Tok (mktok TK_Tilde [] [126] (mkspan (LineCol 1 4) (LineCol 1 5)))); (Tok (mktok TK_Integer [] [49] (mkspan (LineCol 1 5) (LineCol 1 6))))])]); (Tok (mktok TK_Colon [] [58] (mkspan (LineCol 1 6) (LineCol 1 7)))); (Tok (mktok TK_Integer [] [50] (mkspan (LineCol 1 7) (LineCol 1 8))))]).
Proof. vm_compute. reflexivity. Qed.

(** tests/test_tokenizer.rs test_tokenizing_escaped_chars *)
Example rust_254_test_tokenizing_escaped_chars : (rmap (map bare_token) (tokenize default_opts NotScript [49;50;92;46;51;51])) = Ok [(mktok TK_Integer [] [49;50;92;46;51;51] (mkspan (LineCol 1 1) (LineCol 1 7)))].
Proof. vm_compute. reflexivity. Qed.

(** tests/test_tokenizer.rs test_tokenizing_escaped_chars *)
Example rust_255_test_tokenizing_escaped_chars : (rmap (map bare_token) (tokenize default_opts NotScript [49;50;92;46;48;65;51])) = Ok [(mktok TK_Integer [] [49;50] (mkspan (LineCol 1 1) (LineCol 1 3))); (mktok TK_ToplevelNewline [] [92;46;48;65] (mkspan (LineCol 1 3) (LineCol 1 7))); (mktok TK_Integer [] [51] (mkspan (LineCol 1 7) (LineCol 1 8)))].
Proof. vm_compute. reflexivity. Qed.
