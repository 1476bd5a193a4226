(** Generated by tools/conformance/from_wl_tests.py: tests in /repo/Tests with a string as input and
    the resulting tree spelled out, as facts about what the model puts on the link, in a release
    build with tabs of width 1, with the contexts of symbols left out. *)
From Coq Require Import String.
From Coq Require Import ZArith List Bool.
From Verif Require Import Base Source WLChar LongNames GenTokenKind GenPrec GenOps GenParselets Parselets TokenKind Tokenizer Cst Parser SpecParse ErrorReparse Ast Abstract PropsReader PropsAbstract Link PropsLink.
Import ListNotations.
Local Open Scope string_scope.
Local Open Scope list_scope.
Local Open Scope Z_scope.
Definition lastn (s : string) : string := snd (split_symbol s).
Definition short (p : packet) : packet := match p with PFun h n => PFun (lastn h) n | PSym s => PSym (lastn s) | _ => p end.
Definition char_opts : opts := mkopts ConvCharacterIndex 4 true true true (fun _ => false).
Definition d1 : opts := mkopts ConvLineColumn 1 true true true (fun _ => false).
Definition out (w : W) : option (list packet) := match w [] with Ok (l, _) => Some (map short l) | _ => None end.
Definition cc := mk_cfg true true true.
Definition cstp (o : opts) (b : list Z) := match parse_cst_seq o false NotScript b with Ok (l, _) => out (put_nodes cc (map (of_cst plain) l)) | _ => None end.
Definition tokp (o : opts) (b : list Z) := match tokenize o NotScript b with Ok l => out (put_nodes cc (map (fun t => of_cst plain (Tok t)) l)) | _ => None end.
Definition astp (o : opts) (b : list Z) := match parse_cst_seq o false NotScript b with Ok (l, _) =>
   match to_ast release l with Ok l => out (put_list (put_ast cc plain) l) | _ => None end | _ => None end.

(** Abstract.mt Abstract-20220917-E3Y3D8 *)
Example wl_000 : astp d1 [95;95;95;102] =
  Some [PFun "List" 1; PFun "CallNode" 3; PFun "LeafNode" 3; PSym "Symbol"; PStr [66;108;97;110;107;78;117;108;108;83;101;113;117;101;110;99;101]; PFun "Association" 0; PFun "List" 1; PFun "LeafNode" 3; PSym "Symbol"; PStr [102]; PFun "Association" 1; PFun "Rule" 2; PSym "Source"; PFun "List" 2; PFun "List" 2; PInt 1; PInt 4; PFun "List" 2; PInt 1; PInt 5; PFun "Association" 1; PFun "Rule" 2; PSym "Source"; PFun "List" 2; PFun "List" 2; PInt 1; PInt 1; PFun "List" 2; PInt 1; PInt 5].
Proof. vm_compute. reflexivity. Qed.

(** Abstract.mt Abstract-20220917-B2E7W6 *)
Example wl_001 : astp d1 [97;95;95;102] =
  Some [PFun "List" 1; PFun "CallNode" 3; PFun "LeafNode" 3; PSym "Symbol"; PStr [80;97;116;116;101;114;110]; PFun "Association" 0; PFun "List" 2; PFun "LeafNode" 3; PSym "Symbol"; PStr [97]; PFun "Association" 1; PFun "Rule" 2; PSym "Source"; PFun "List" 2; PFun "List" 2; PInt 1; PInt 1; PFun "List" 2; PInt 1; PInt 2; PFun "CallNode" 3; PFun "LeafNode" 3; PSym "Symbol"; PStr [66;108;97;110;107;83;101;113;117;101;110;99;101]; PFun "Association" 0; PFun "List" 1; PFun "LeafNode" 3; PSym "Symbol"; PStr [102]; PFun "Association" 1; PFun "Rule" 2; PSym "Source"; PFun "List" 2; PFun "List" 2; PInt 1; PInt 4; PFun "List" 2; PInt 1; PInt 5; PFun "Association" 1; PFun "Rule" 2; PSym "Source"; PFun "List" 2; PFun "List" 2; PInt 1; PInt 2; PFun "List" 2; PInt 1; PInt 5; PFun "Association" 1; PFun "Rule" 2; PSym "Source"; PFun "List" 2; PFun "List" 2; PInt 1; PInt 1; PFun "List" 2; PInt 1; PInt 5].
Proof. vm_compute. reflexivity. Qed.

(** Abstract.mt Abstract-20220917-Z5G2R2 *)
Example wl_002 : astp d1 [97;95;95;95;102] =
  Some [PFun "List" 1; PFun "CallNode" 3; PFun "LeafNode" 3; PSym "Symbol"; PStr [80;97;116;116;101;114;110]; PFun "Association" 0; PFun "List" 2; PFun "LeafNode" 3; PSym "Symbol"; PStr [97]; PFun "Association" 1; PFun "Rule" 2; PSym "Source"; PFun "List" 2; PFun "List" 2; PInt 1; PInt 1; PFun "List" 2; PInt 1; PInt 2; PFun "CallNode" 3; PFun "LeafNode" 3; PSym "Symbol"; PStr [66;108;97;110;107;78;117;108;108;83;101;113;117;101;110;99;101]; PFun "Association" 0; PFun "List" 1; PFun "LeafNode" 3; PSym "Symbol"; PStr [102]; PFun "Association" 1; PFun "Rule" 2; PSym "Source"; PFun "List" 2; PFun "List" 2; PInt 1; PInt 5; PFun "List" 2; PInt 1; PInt 6; PFun "Association" 1; PFun "Rule" 2; PSym "Source"; PFun "List" 2; PFun "List" 2; PInt 1; PInt 2; PFun "List" 2; PInt 1; PInt 6; PFun "Association" 1; PFun "Rule" 2; PSym "Source"; PFun "List" 2; PFun "List" 2; PInt 1; PInt 1; PFun "List" 2; PInt 1; PInt 6].
Proof. vm_compute. reflexivity. Qed.

(** Abstract.mt Abstract-20220917-Y0I3N5 *)
Example wl_003 : astp d1 [97;32;64;64;64;32;98] =
  Some [PFun "List" 1; PFun "CallNode" 3; PFun "LeafNode" 3; PSym "Symbol"; PStr [77;97;112;65;112;112;108;121]; PFun "Association" 0; PFun "List" 2; PFun "LeafNode" 3; PSym "Symbol"; PStr [97]; PFun "Association" 1; PFun "Rule" 2; PSym "Source"; PFun "List" 2; PFun "List" 2; PInt 1; PInt 1; PFun "List" 2; PInt 1; PInt 2; PFun "LeafNode" 3; PSym "Symbol"; PStr [98]; PFun "Association" 1; PFun "Rule" 2; PSym "Source"; PFun "List" 2; PFun "List" 2; PInt 1; PInt 7; PFun "List" 2; PInt 1; PInt 8; PFun "Association" 1; PFun "Rule" 2; PSym "Source"; PFun "List" 2; PFun "List" 2; PInt 1; PInt 1; PFun "List" 2; PInt 1; PInt 8].
Proof. vm_compute. reflexivity. Qed.

(** Abstract.mt Abstract-20220917-Z0U5W8 *)
Example wl_004 : astp d1 [97;92;91;76;101;102;116;68;111;117;98;108;101;66;114;97;99;107;101;116;93;98;44;32;99;92;91;82;105;103;104;116;68;111;117;98;108;101;66;114;97;99;107;101;116;93] =
  Some [PFun "List" 1; PFun "CallNode" 3; PFun "LeafNode" 3; PSym "Symbol"; PStr [80;97;114;116]; PFun "Association" 0; PFun "List" 3; PFun "LeafNode" 3; PSym "Symbol"; PStr [97]; PFun "Association" 1; PFun "Rule" 2; PSym "Source"; PFun "List" 2; PFun "List" 2; PInt 1; PInt 1; PFun "List" 2; PInt 1; PInt 2; PFun "LeafNode" 3; PSym "Symbol"; PStr [98]; PFun "Association" 1; PFun "Rule" 2; PSym "Source"; PFun "List" 2; PFun "List" 2; PInt 1; PInt 22; PFun "List" 2; PInt 1; PInt 23; PFun "LeafNode" 3; PSym "Symbol"; PStr [99]; PFun "Association" 1; PFun "Rule" 2; PSym "Source"; PFun "List" 2; PFun "List" 2; PInt 1; PInt 25; PFun "List" 2; PInt 1; PInt 26; PFun "Association" 1; PFun "Rule" 2; PSym "Source"; PFun "List" 2; PFun "List" 2; PInt 1; PInt 1; PFun "List" 2; PInt 1; PInt 47].
Proof. vm_compute. reflexivity. Qed.

(** Abstract.mt Abstract-20220917-J7P6H3 *)
Example wl_005 : astp d1 [91;91;97;93;93] =
  Some [PFun "List" 1; PFun "AbstractSyntaxErrorNode" 3; PSym "OpenSquare"; PFun "List" 1; PFun "AbstractSyntaxErrorNode" 3; PSym "OpenSquare"; PFun "List" 1; PFun "LeafNode" 3; PSym "Symbol"; PStr [97]; PFun "Association" 1; PFun "Rule" 2; PSym "Source"; PFun "List" 2; PFun "List" 2; PInt 1; PInt 3; PFun "List" 2; PInt 1; PInt 4; PFun "Association" 1; PFun "Rule" 2; PSym "Source"; PFun "List" 2; PFun "List" 2; PInt 1; PInt 2; PFun "List" 2; PInt 1; PInt 5; PFun "Association" 1; PFun "Rule" 2; PSym "Source"; PFun "List" 2; PFun "List" 2; PInt 1; PInt 1; PFun "List" 2; PInt 1; PInt 6].
Proof. vm_compute. reflexivity. Qed.

(** AbstractSyntaxErrorNodes.mt AbstractSyntaxErrorNodes-20220917-G3L5M1 *)
Example wl_006 : astp d1 [32;58;58;91;120;93;32] =
  Some [PFun "List" 1; PFun "AbstractSyntaxErrorNode" 3; PSym "ColonColonOpenSquare"; PFun "List" 1; PFun "LeafNode" 3; PSym "Symbol"; PStr [120]; PFun "Association" 1; PFun "Rule" 2; PSym "Source"; PFun "List" 2; PFun "List" 2; PInt 1; PInt 5; PFun "List" 2; PInt 1; PInt 6; PFun "Association" 1; PFun "Rule" 2; PSym "Source"; PFun "List" 2; PFun "List" 2; PInt 1; PInt 2; PFun "List" 2; PInt 1; PInt 7].
Proof. vm_compute. reflexivity. Qed.

(** AbstractSyntaxErrorNodes.mt AbstractSyntaxErrorNodes-20220917-C4T9X0 *)
Example wl_007 : astp d1 [32;92;91;76;101;102;116;68;111;117;98;108;101;66;114;97;99;107;101;116;93;120;92;91;82;105;103;104;116;68;111;117;98;108;101;66;114;97;99;107;101;116;93;32] =
  Some [PFun "List" 1; PFun "AbstractSyntaxErrorNode" 3; PSym "LeftDoubleBracket"; PFun "List" 1; PFun "LeafNode" 3; PSym "Symbol"; PStr [120]; PFun "Association" 1; PFun "Rule" 2; PSym "Source"; PFun "List" 2; PFun "List" 2; PInt 1; PInt 22; PFun "List" 2; PInt 1; PInt 23; PFun "Association" 1; PFun "Rule" 2; PSym "Source"; PFun "List" 2; PFun "List" 2; PInt 1; PInt 2; PFun "List" 2; PInt 1; PInt 44].
Proof. vm_compute. reflexivity. Qed.

(** AbstractSyntaxErrorNodes.mt AbstractSyntaxErrorNodes-20190520-N8K8K4 *)
Example wl_008 : astp d1 [92;33;49;50;51] =
  Some [PFun "List" 1; PFun "AbstractSyntaxErrorNode" 3; PSym "LinearSyntaxBang"; PFun "List" 1; PFun "LeafNode" 3; PSym "Integer"; PStr [49;50;51]; PFun "Association" 1; PFun "Rule" 2; PSym "Source"; PFun "List" 2; PFun "List" 2; PInt 1; PInt 3; PFun "List" 2; PInt 1; PInt 6; PFun "Association" 1; PFun "Rule" 2; PSym "Source"; PFun "List" 2; PFun "List" 2; PInt 1; PInt 1; PFun "List" 2; PInt 1; PInt 6].
Proof. vm_compute. reflexivity. Qed.

(** AbstractSyntaxErrorNodes.mt AbstractSyntaxErrorNodes-20190521-A6K4H1 *)
Example wl_009 : astp d1 [97;32;63;32;98;32;63;32;99] =
  Some [PFun "List" 1; PFun "AbstractSyntaxErrorNode" 3; PSym "NonAssociativePatternTest"; PFun "List" 2; PFun "CallNode" 3; PFun "LeafNode" 3; PSym "Symbol"; PStr [80;97;116;116;101;114;110;84;101;115;116]; PFun "Association" 0; PFun "List" 2; PFun "LeafNode" 3; PSym "Symbol"; PStr [97]; PFun "Association" 1; PFun "Rule" 2; PSym "Source"; PFun "List" 2; PFun "List" 2; PInt 1; PInt 1; PFun "List" 2; PInt 1; PInt 2; PFun "LeafNode" 3; PSym "Symbol"; PStr [98]; PFun "Association" 1; PFun "Rule" 2; PSym "Source"; PFun "List" 2; PFun "List" 2; PInt 1; PInt 5; PFun "List" 2; PInt 1; PInt 6; PFun "Association" 1; PFun "Rule" 2; PSym "Source"; PFun "List" 2; PFun "List" 2; PInt 1; PInt 1; PFun "List" 2; PInt 1; PInt 6; PFun "LeafNode" 3; PSym "Symbol"; PStr [99]; PFun "Association" 1; PFun "Rule" 2; PSym "Source"; PFun "List" 2; PFun "List" 2; PInt 1; PInt 9; PFun "List" 2; PInt 1; PInt 10; PFun "Association" 1; PFun "Rule" 2; PSym "Source"; PFun "List" 2; PFun "List" 2; PInt 1; PInt 1; PFun "List" 2; PInt 1; PInt 10].
Proof. vm_compute. reflexivity. Qed.

(** AbstractSyntaxErrorNodes.mt AbstractSyntaxErrorNodes-20190521-Z6D6T1 *)
Example wl_010 : astp d1 [49;58;50] =
  Some [PFun "List" 1; PFun "SyntaxErrorNode" 3; PSym "ExpectedSymbol"; PFun "List" 2; PFun "LeafNode" 3; PSym "Integer"; PStr [49]; PFun "Association" 1; PFun "Rule" 2; PSym "Source"; PFun "List" 2; PFun "List" 2; PInt 1; PInt 1; PFun "List" 2; PInt 1; PInt 2; PFun "LeafNode" 3; PSym "Integer"; PStr [50]; PFun "Association" 1; PFun "Rule" 2; PSym "Source"; PFun "List" 2; PFun "List" 2; PInt 1; PInt 3; PFun "List" 2; PInt 1; PInt 4; PFun "Association" 1; PFun "Rule" 2; PSym "Source"; PFun "List" 2; PFun "List" 2; PInt 1; PInt 1; PFun "List" 2; PInt 1; PInt 4].
Proof. vm_compute. reflexivity. Qed.

(** CallMissingCloserNodes.mt CallMissingCloserNodes-20190701-H7G3R7 *)
Example wl_011 : astp d1 [102;91] =
  Some [PFun "List" 1; PFun "CallMissingCloserNode" 3; PFun "LeafNode" 3; PSym "Symbol"; PStr [102]; PFun "Association" 1; PFun "Rule" 2; PSym "Source"; PFun "List" 2; PFun "List" 2; PInt 1; PInt 1; PFun "List" 2; PInt 1; PInt 2; PFun "List" 0; PFun "Association" 1; PFun "Rule" 2; PSym "Source"; PFun "List" 2; PFun "List" 2; PInt 1; PInt 1; PFun "List" 2; PInt 1; PInt 3].
Proof. vm_compute. reflexivity. Qed.

(** CallMissingCloserNodes.mt CallMissingCloserNodes-20220917-B7K4Z8 *)
Example wl_012 : astp d1 [102;91;49] =
  Some [PFun "List" 1; PFun "CallMissingCloserNode" 3; PFun "LeafNode" 3; PSym "Symbol"; PStr [102]; PFun "Association" 1; PFun "Rule" 2; PSym "Source"; PFun "List" 2; PFun "List" 2; PInt 1; PInt 1; PFun "List" 2; PInt 1; PInt 2; PFun "List" 1; PFun "LeafNode" 3; PSym "Integer"; PStr [49]; PFun "Association" 1; PFun "Rule" 2; PSym "Source"; PFun "List" 2; PFun "List" 2; PInt 1; PInt 3; PFun "List" 2; PInt 1; PInt 4; PFun "Association" 1; PFun "Rule" 2; PSym "Source"; PFun "List" 2; PFun "List" 2; PInt 1; PInt 1; PFun "List" 2; PInt 1; PInt 4].
Proof. vm_compute. reflexivity. Qed.

(** CallMissingCloserNodes.mt CallMissingCloserNodes-20220917-W2D0J4 *)
Example wl_013 : astp d1 [102;58;58;91] =
  Some [PFun "List" 1; PFun "CallMissingCloserNode" 3; PFun "CallNode" 3; PFun "LeafNode" 3; PSym "Symbol"; PStr [84;121;112;101;83;112;101;99;105;102;105;101;114]; PFun "Association" 0; PFun "List" 1; PFun "LeafNode" 3; PSym "Symbol"; PStr [102]; PFun "Association" 1; PFun "Rule" 2; PSym "Source"; PFun "List" 2; PFun "List" 2; PInt 1; PInt 1; PFun "List" 2; PInt 1; PInt 2; PFun "Association" 0; PFun "List" 0; PFun "Association" 1; PFun "Rule" 2; PSym "Source"; PFun "List" 2; PFun "List" 2; PInt 1; PInt 1; PFun "List" 2; PInt 1; PInt 5].
Proof. vm_compute. reflexivity. Qed.

(** CallMissingCloserNodes.mt CallMissingCloserNodes-20220917-L2H2N5 *)
Example wl_014 : astp d1 [102;58;58;91;49] =
  Some [PFun "List" 1; PFun "CallMissingCloserNode" 3; PFun "CallNode" 3; PFun "LeafNode" 3; PSym "Symbol"; PStr [84;121;112;101;83;112;101;99;105;102;105;101;114]; PFun "Association" 0; PFun "List" 1; PFun "LeafNode" 3; PSym "Symbol"; PStr [102]; PFun "Association" 1; PFun "Rule" 2; PSym "Source"; PFun "List" 2; PFun "List" 2; PInt 1; PInt 1; PFun "List" 2; PInt 1; PInt 2; PFun "Association" 0; PFun "List" 1; PFun "LeafNode" 3; PSym "Integer"; PStr [49]; PFun "Association" 1; PFun "Rule" 2; PSym "Source"; PFun "List" 2; PFun "List" 2; PInt 1; PInt 5; PFun "List" 2; PInt 1; PInt 6; PFun "Association" 1; PFun "Rule" 2; PSym "Source"; PFun "List" 2; PFun "List" 2; PInt 1; PInt 1; PFun "List" 2; PInt 1; PInt 6].
Proof. vm_compute. reflexivity. Qed.

(** CallMissingCloserNodes.mt CallMissingCloserNodes-20220917-C2J4K7 *)
Example wl_015 : astp d1 [102;92;91;76;101;102;116;68;111;117;98;108;101;66;114;97;99;107;101;116;93] =
  Some [PFun "List" 1; PFun "CallMissingCloserNode" 3; PFun "LeafNode" 3; PSym "Symbol"; PStr [80;97;114;116]; PFun "Association" 0; PFun "List" 1; PFun "LeafNode" 3; PSym "Symbol"; PStr [102]; PFun "Association" 1; PFun "Rule" 2; PSym "Source"; PFun "List" 2; PFun "List" 2; PInt 1; PInt 1; PFun "List" 2; PInt 1; PInt 2; PFun "Association" 1; PFun "Rule" 2; PSym "Source"; PFun "List" 2; PFun "List" 2; PInt 1; PInt 1; PFun "List" 2; PInt 1; PInt 22].
Proof. vm_compute. reflexivity. Qed.

(** CallMissingCloserNodes.mt CallMissingCloserNodes-20220917-J0V0J3 *)
Example wl_016 : astp d1 [102;92;91;76;101;102;116;68;111;117;98;108;101;66;114;97;99;107;101;116;93;49] =
  Some [PFun "List" 1; PFun "CallMissingCloserNode" 3; PFun "LeafNode" 3; PSym "Symbol"; PStr [80;97;114;116]; PFun "Association" 0; PFun "List" 2; PFun "LeafNode" 3; PSym "Symbol"; PStr [102]; PFun "Association" 1; PFun "Rule" 2; PSym "Source"; PFun "List" 2; PFun "List" 2; PInt 1; PInt 1; PFun "List" 2; PInt 1; PInt 2; PFun "LeafNode" 3; PSym "Integer"; PStr [49]; PFun "Association" 1; PFun "Rule" 2; PSym "Source"; PFun "List" 2; PFun "List" 2; PInt 1; PInt 22; PFun "List" 2; PInt 1; PInt 23; PFun "Association" 1; PFun "Rule" 2; PSym "Source"; PFun "List" 2; PFun "List" 2; PInt 1; PInt 1; PFun "List" 2; PInt 1; PInt 23].
Proof. vm_compute. reflexivity. Qed.

(** CallMissingCloserNodes.mt CallMissingCloserNodes-20220917-L0B1H1 *)
Example wl_017 : astp d1 [40;32;102;91;32;41] =
  Some [PFun "List" 1; PFun "CallMissingCloserNode" 3; PFun "LeafNode" 3; PSym "Symbol"; PStr [102]; PFun "Association" 1; PFun "Rule" 2; PSym "Source"; PFun "List" 2; PFun "List" 2; PInt 1; PInt 3; PFun "List" 2; PInt 1; PInt 4; PFun "List" 0; PFun "Association" 1; PFun "Rule" 2; PSym "Source"; PFun "List" 2; PFun "List" 2; PInt 1; PInt 3; PFun "List" 2; PInt 1; PInt 5].
Proof. vm_compute. reflexivity. Qed.

(** CallMissingCloserNodes.mt CallMissingCloserNodes-20220917-J2C1D4 *)
Example wl_018 : astp d1 [40;32;102;91;49;32;41] =
  Some [PFun "List" 1; PFun "CallMissingCloserNode" 3; PFun "LeafNode" 3; PSym "Symbol"; PStr [102]; PFun "Association" 1; PFun "Rule" 2; PSym "Source"; PFun "List" 2; PFun "List" 2; PInt 1; PInt 3; PFun "List" 2; PInt 1; PInt 4; PFun "List" 1; PFun "LeafNode" 3; PSym "Integer"; PStr [49]; PFun "Association" 1; PFun "Rule" 2; PSym "Source"; PFun "List" 2; PFun "List" 2; PInt 1; PInt 5; PFun "List" 2; PInt 1; PInt 6; PFun "Association" 1; PFun "Rule" 2; PSym "Source"; PFun "List" 2; PFun "List" 2; PInt 1; PInt 3; PFun "List" 2; PInt 1; PInt 6].
Proof. vm_compute. reflexivity. Qed.

(** CallMissingCloserNodes.mt CallMissingCloserNodes-20220917-S2K7R7 *)
Example wl_019 : astp d1 [40;32;102;58;58;91;32;41] =
  Some [PFun "List" 1; PFun "CallMissingCloserNode" 3; PFun "CallNode" 3; PFun "LeafNode" 3; PSym "Symbol"; PStr [84;121;112;101;83;112;101;99;105;102;105;101;114]; PFun "Association" 0; PFun "List" 1; PFun "LeafNode" 3; PSym "Symbol"; PStr [102]; PFun "Association" 1; PFun "Rule" 2; PSym "Source"; PFun "List" 2; PFun "List" 2; PInt 1; PInt 3; PFun "List" 2; PInt 1; PInt 4; PFun "Association" 0; PFun "List" 0; PFun "Association" 1; PFun "Rule" 2; PSym "Source"; PFun "List" 2; PFun "List" 2; PInt 1; PInt 3; PFun "List" 2; PInt 1; PInt 7].
Proof. vm_compute. reflexivity. Qed.

(** CallMissingCloserNodes.mt CallMissingCloserNodes-20220917-K9J6S4 *)
Example wl_020 : astp d1 [40;32;102;58;58;91;49;32;41] =
  Some [PFun "List" 1; PFun "CallMissingCloserNode" 3; PFun "CallNode" 3; PFun "LeafNode" 3; PSym "Symbol"; PStr [84;121;112;101;83;112;101;99;105;102;105;101;114]; PFun "Association" 0; PFun "List" 1; PFun "LeafNode" 3; PSym "Symbol"; PStr [102]; PFun "Association" 1; PFun "Rule" 2; PSym "Source"; PFun "List" 2; PFun "List" 2; PInt 1; PInt 3; PFun "List" 2; PInt 1; PInt 4; PFun "Association" 0; PFun "List" 1; PFun "LeafNode" 3; PSym "Integer"; PStr [49]; PFun "Association" 1; PFun "Rule" 2; PSym "Source"; PFun "List" 2; PFun "List" 2; PInt 1; PInt 7; PFun "List" 2; PInt 1; PInt 8; PFun "Association" 1; PFun "Rule" 2; PSym "Source"; PFun "List" 2; PFun "List" 2; PInt 1; PInt 3; PFun "List" 2; PInt 1; PInt 8].
Proof. vm_compute. reflexivity. Qed.

(** CallMissingCloserNodes.mt CallMissingCloserNodes-20220917-D4Q8T3 *)
Example wl_021 : astp d1 [40;32;102;92;91;76;101;102;116;68;111;117;98;108;101;66;114;97;99;107;101;116;93;32;41] =
  Some [PFun "List" 1; PFun "CallMissingCloserNode" 3; PFun "LeafNode" 3; PSym "Symbol"; PStr [80;97;114;116]; PFun "Association" 0; PFun "List" 1; PFun "LeafNode" 3; PSym "Symbol"; PStr [102]; PFun "Association" 1; PFun "Rule" 2; PSym "Source"; PFun "List" 2; PFun "List" 2; PInt 1; PInt 3; PFun "List" 2; PInt 1; PInt 4; PFun "Association" 1; PFun "Rule" 2; PSym "Source"; PFun "List" 2; PFun "List" 2; PInt 1; PInt 3; PFun "List" 2; PInt 1; PInt 24].
Proof. vm_compute. reflexivity. Qed.

(** CallMissingCloserNodes.mt CallMissingCloserNodes-20220917-V9R1M3 *)
Example wl_022 : astp d1 [40;32;102;92;91;76;101;102;116;68;111;117;98;108;101;66;114;97;99;107;101;116;93;49;32;41] =
  Some [PFun "List" 1; PFun "CallMissingCloserNode" 3; PFun "LeafNode" 3; PSym "Symbol"; PStr [80;97;114;116]; PFun "Association" 0; PFun "List" 2; PFun "LeafNode" 3; PSym "Symbol"; PStr [102]; PFun "Association" 1; PFun "Rule" 2; PSym "Source"; PFun "List" 2; PFun "List" 2; PInt 1; PInt 3; PFun "List" 2; PInt 1; PInt 4; PFun "LeafNode" 3; PSym "Integer"; PStr [49]; PFun "Association" 1; PFun "Rule" 2; PSym "Source"; PFun "List" 2; PFun "List" 2; PInt 1; PInt 24; PFun "List" 2; PInt 1; PInt 25; PFun "Association" 1; PFun "Rule" 2; PSym "Source"; PFun "List" 2; PFun "List" 2; PInt 1; PInt 3; PFun "List" 2; PInt 1; PInt 25].
Proof. vm_compute. reflexivity. Qed.

(** CallMissingCloserNodes.mt CallMissingCloserNodes-20220917-B5I2K2 *)
Example wl_023 : astp d1 [40;32;91;32;41] =
  Some [PFun "List" 1; PFun "GroupMissingCloserNode" 3; PSym "GroupSquare"; PFun "List" 0; PFun "Association" 1; PFun "Rule" 2; PSym "Source"; PFun "List" 2; PFun "List" 2; PInt 1; PInt 3; PFun "List" 2; PInt 1; PInt 4].
Proof. vm_compute. reflexivity. Qed.

(** CallMissingCloserNodes.mt CallMissingCloserNodes-20220917-X9W0H8 *)
Example wl_024 : astp d1 [40;32;58;58;91;32;41] =
  Some [PFun "List" 1; PFun "GroupMissingCloserNode" 3; PSym "GroupTypeSpecifier"; PFun "List" 0; PFun "Association" 1; PFun "Rule" 2; PSym "Source"; PFun "List" 2; PFun "List" 2; PInt 1; PInt 3; PFun "List" 2; PInt 1; PInt 6].
Proof. vm_compute. reflexivity. Qed.

(** CallMissingCloserNodes.mt CallMissingCloserNodes-20220917-G3Y7X9 *)
Example wl_025 : astp d1 [40;32;92;91;76;101;102;116;68;111;117;98;108;101;66;114;97;99;107;101;116;93;32;41] =
  Some [PFun "List" 1; PFun "GroupMissingCloserNode" 3; PSym "GroupDoubleBracket"; PFun "List" 0; PFun "Association" 1; PFun "Rule" 2; PSym "Source"; PFun "List" 2; PFun "List" 2; PInt 1; PInt 3; PFun "List" 2; PInt 1; PInt 23].
Proof. vm_compute. reflexivity. Qed.

(** CallMissingCloserNodes.mt CallMissingCloserNodes-20190803-C7O2S5 *)
Example wl_026 : astp d1 [40;97;91;98;91;93;41] =
  Some [PFun "List" 1; PFun "CallMissingCloserNode" 3; PFun "LeafNode" 3; PSym "Symbol"; PStr [97]; PFun "Association" 1; PFun "Rule" 2; PSym "Source"; PFun "List" 2; PFun "List" 2; PInt 1; PInt 2; PFun "List" 2; PInt 1; PInt 3; PFun "List" 1; PFun "CallNode" 3; PFun "LeafNode" 3; PSym "Symbol"; PStr [98]; PFun "Association" 1; PFun "Rule" 2; PSym "Source"; PFun "List" 2; PFun "List" 2; PInt 1; PInt 4; PFun "List" 2; PInt 1; PInt 5; PFun "List" 0; PFun "Association" 1; PFun "Rule" 2; PSym "Source"; PFun "List" 2; PFun "List" 2; PInt 1; PInt 4; PFun "List" 2; PInt 1; PInt 7; PFun "Association" 1; PFun "Rule" 2; PSym "Source"; PFun "List" 2; PFun "List" 2; PInt 1; PInt 2; PFun "List" 2; PInt 1; PInt 7].
Proof. vm_compute. reflexivity. Qed.

(** CallMissingCloserNodes.mt CallMissingCloserNodes-20200708-Y2V4V2 *)
Example wl_027 : astp d1 [76;105;115;116;91;97] =
  Some [PFun "List" 1; PFun "CallMissingCloserNode" 3; PFun "LeafNode" 3; PSym "Symbol"; PStr [76;105;115;116]; PFun "Association" 1; PFun "Rule" 2; PSym "Source"; PFun "List" 2; PFun "List" 2; PInt 1; PInt 1; PFun "List" 2; PInt 1; PInt 5; PFun "List" 1; PFun "LeafNode" 3; PSym "Symbol"; PStr [97]; PFun "Association" 1; PFun "Rule" 2; PSym "Source"; PFun "List" 2; PFun "List" 2; PInt 1; PInt 6; PFun "List" 2; PInt 1; PInt 7; PFun "Association" 1; PFun "Rule" 2; PSym "Source"; PFun "List" 2; PFun "List" 2; PInt 1; PInt 1; PFun "List" 2; PInt 1; PInt 7].
Proof. vm_compute. reflexivity. Qed.

(** CodeParser.mt CodeParser-20220910-I3Q6U1 *)
Example wl_028 : astp d1 [92;91;80;105;93] =
  Some [PFun "List" 1; PFun "LeafNode" 3; PSym "Symbol"; PStr [80;105]; PFun "Association" 1; PFun "Rule" 2; PSym "Source"; PFun "List" 2; PFun "List" 2; PInt 1; PInt 1; PFun "List" 2; PInt 1; PInt 6].
Proof. vm_compute. reflexivity. Qed.

(** CodeParser.mt CodeParser-20220910-Z3K4F3 *)
Example wl_029 : astp d1 [92;91;68;101;103;114;101;101;93] =
  Some [PFun "List" 1; PFun "LeafNode" 3; PSym "Symbol"; PStr [68;101;103;114;101;101]; PFun "Association" 1; PFun "Rule" 2; PSym "Source"; PFun "List" 2; PFun "List" 2; PInt 1; PInt 1; PFun "List" 2; PInt 1; PInt 10].
Proof. vm_compute. reflexivity. Qed.

(** CodeParser.mt CodeParser-20220910-T2T3W7 *)
Example wl_030 : astp d1 [92;91;73;110;102;105;110;105;116;121;93] =
  Some [PFun "List" 1; PFun "LeafNode" 3; PSym "Symbol"; PStr [73;110;102;105;110;105;116;121]; PFun "Association" 1; PFun "Rule" 2; PSym "Source"; PFun "List" 2; PFun "List" 2; PInt 1; PInt 1; PFun "List" 2; PInt 1; PInt 12].
Proof. vm_compute. reflexivity. Qed.

(** CodeParser.mt CodeParser-20220910-H2B2B6 *)
Example wl_031 : astp d1 [92;91;69;120;112;111;110;101;110;116;105;97;108;69;93] =
  Some [PFun "List" 1; PFun "LeafNode" 3; PSym "Symbol"; PStr [69]; PFun "Association" 1; PFun "Rule" 2; PSym "Source"; PFun "List" 2; PFun "List" 2; PInt 1; PInt 1; PFun "List" 2; PInt 1; PInt 16].
Proof. vm_compute. reflexivity. Qed.

(** CodeParser.mt CodeParser-20220910-M6R5R1 *)
Example wl_032 : astp d1 [92;91;73;109;97;103;105;110;97;114;121;73;93] =
  Some [PFun "List" 1; PFun "LeafNode" 3; PSym "Symbol"; PStr [73]; PFun "Association" 1; PFun "Rule" 2; PSym "Source"; PFun "List" 2; PFun "List" 2; PInt 1; PInt 1; PFun "List" 2; PInt 1; PInt 14].
Proof. vm_compute. reflexivity. Qed.

(** CodeParser.mt CodeParser-20220910-C4S7C2 *)
Example wl_033 : astp d1 [92;91;73;109;97;103;105;110;97;114;121;74;93] =
  Some [PFun "List" 1; PFun "LeafNode" 3; PSym "Symbol"; PStr [73]; PFun "Association" 1; PFun "Rule" 2; PSym "Source"; PFun "List" 2; PFun "List" 2; PInt 1; PInt 1; PFun "List" 2; PInt 1; PInt 14].
Proof. vm_compute. reflexivity. Qed.

(** Concrete.mt Concrete-20190521-U1K7U2 *)
Example wl_034 : cstp d1 [97;58;98] =
  Some [PFun "List" 1; PFun "BinaryNode" 3; PSym "Pattern"; PFun "List" 3; PFun "LeafNode" 3; PSym "Symbol"; PStr [97]; PFun "Association" 1; PFun "Rule" 2; PSym "Source"; PFun "List" 2; PFun "List" 2; PInt 1; PInt 1; PFun "List" 2; PInt 1; PInt 2; PFun "LeafNode" 3; PSym "Colon"; PStr [58]; PFun "Association" 1; PFun "Rule" 2; PSym "Source"; PFun "List" 2; PFun "List" 2; PInt 1; PInt 2; PFun "List" 2; PInt 1; PInt 3; PFun "LeafNode" 3; PSym "Symbol"; PStr [98]; PFun "Association" 1; PFun "Rule" 2; PSym "Source"; PFun "List" 2; PFun "List" 2; PInt 1; PInt 3; PFun "List" 2; PInt 1; PInt 4; PFun "Association" 1; PFun "Rule" 2; PSym "Source"; PFun "List" 2; PFun "List" 2; PInt 1; PInt 1; PFun "List" 2; PInt 1; PInt 4].
Proof. vm_compute. reflexivity. Qed.

(** Concrete.mt Concrete-20190521-V6P9B0 *)
Example wl_035 : cstp d1 [97;95;58;98] =
  Some [PFun "List" 1; PFun "BinaryNode" 3; PSym "Optional"; PFun "List" 3; PFun "CompoundNode" 3; PSym "PatternBlank"; PFun "List" 2; PFun "LeafNode" 3; PSym "Symbol"; PStr [97]; PFun "Association" 1; PFun "Rule" 2; PSym "Source"; PFun "List" 2; PFun "List" 2; PInt 1; PInt 1; PFun "List" 2; PInt 1; PInt 2; PFun "LeafNode" 3; PSym "Under"; PStr [95]; PFun "Association" 1; PFun "Rule" 2; PSym "Source"; PFun "List" 2; PFun "List" 2; PInt 1; PInt 2; PFun "List" 2; PInt 1; PInt 3; PFun "Association" 1; PFun "Rule" 2; PSym "Source"; PFun "List" 2; PFun "List" 2; PInt 1; PInt 1; PFun "List" 2; PInt 1; PInt 3; PFun "LeafNode" 3; PSym "Colon"; PStr [58]; PFun "Association" 1; PFun "Rule" 2; PSym "Source"; PFun "List" 2; PFun "List" 2; PInt 1; PInt 3; PFun "List" 2; PInt 1; PInt 4; PFun "LeafNode" 3; PSym "Symbol"; PStr [98]; PFun "Association" 1; PFun "Rule" 2; PSym "Source"; PFun "List" 2; PFun "List" 2; PInt 1; PInt 4; PFun "List" 2; PInt 1; PInt 5; PFun "Association" 1; PFun "Rule" 2; PSym "Source"; PFun "List" 2; PFun "List" 2; PInt 1; PInt 1; PFun "List" 2; PInt 1; PInt 5].
Proof. vm_compute. reflexivity. Qed.

(** Concrete.mt Concrete-20190117-C3R5P5 *)
Example wl_036 : cstp d1 [97;59;32;59] =
  Some [PFun "List" 1; PFun "InfixNode" 3; PSym "CompoundExpression"; PFun "List" 6; PFun "LeafNode" 3; PSym "Symbol"; PStr [97]; PFun "Association" 1; PFun "Rule" 2; PSym "Source"; PFun "List" 2; PFun "List" 2; PInt 1; PInt 1; PFun "List" 2; PInt 1; PInt 2; PFun "LeafNode" 3; PSym "Semi"; PStr [59]; PFun "Association" 1; PFun "Rule" 2; PSym "Source"; PFun "List" 2; PFun "List" 2; PInt 1; PInt 2; PFun "List" 2; PInt 1; PInt 3; PFun "LeafNode" 3; PSym "Whitespace"; PStr [32]; PFun "Association" 1; PFun "Rule" 2; PSym "Source"; PFun "List" 2; PFun "List" 2; PInt 1; PInt 3; PFun "List" 2; PInt 1; PInt 4; PFun "LeafNode" 3; PSym "ImplicitNull"; PStr []; PFun "Association" 1; PFun "Rule" 2; PSym "Source"; PFun "List" 2; PFun "List" 2; PInt 1; PInt 4; PFun "List" 2; PInt 1; PInt 4; PFun "LeafNode" 3; PSym "Semi"; PStr [59]; PFun "Association" 1; PFun "Rule" 2; PSym "Source"; PFun "List" 2; PFun "List" 2; PInt 1; PInt 4; PFun "List" 2; PInt 1; PInt 5; PFun "LeafNode" 3; PSym "ImplicitNull"; PStr []; PFun "Association" 1; PFun "Rule" 2; PSym "Source"; PFun "List" 2; PFun "List" 2; PInt 1; PInt 5; PFun "List" 2; PInt 1; PInt 5; PFun "Association" 1; PFun "Rule" 2; PSym "Source"; PFun "List" 2; PFun "List" 2; PInt 1; PInt 1; PFun "List" 2; PInt 1; PInt 5].
Proof. vm_compute. reflexivity. Qed.

(** Concrete.mt Concrete-20190601-B0Y1X6 *)
Example wl_037 : cstp d1 [63;97] =
  Some [PFun "List" 1; PFun "BinaryNode" 3; PSym "PatternTest"; PFun "List" 3; PFun "ErrorNode" 3; PSym "ExpectedOperand"; PStr []; PFun "Association" 1; PFun "Rule" 2; PSym "Source"; PFun "List" 2; PFun "List" 2; PInt 1; PInt 1; PFun "List" 2; PInt 1; PInt 1; PFun "LeafNode" 3; PSym "Question"; PStr [63]; PFun "Association" 1; PFun "Rule" 2; PSym "Source"; PFun "List" 2; PFun "List" 2; PInt 1; PInt 1; PFun "List" 2; PInt 1; PInt 2; PFun "LeafNode" 3; PSym "Symbol"; PStr [97]; PFun "Association" 1; PFun "Rule" 2; PSym "Source"; PFun "List" 2; PFun "List" 2; PInt 1; PInt 2; PFun "List" 2; PInt 1; PInt 3; PFun "Association" 1; PFun "Rule" 2; PSym "Source"; PFun "List" 2; PFun "List" 2; PInt 1; PInt 1; PFun "List" 2; PInt 1; PInt 3].
Proof. vm_compute. reflexivity. Qed.

(** Concrete.mt Concrete-20190601-H6L1N7 *)
Example wl_038 : cstp d1 [123;10;63;97;125] =
  Some [PFun "List" 1; PFun "GroupNode" 3; PSym "List"; PFun "List" 4; PFun "LeafNode" 3; PSym "OpenCurly"; PStr [123]; PFun "Association" 1; PFun "Rule" 2; PSym "Source"; PFun "List" 2; PFun "List" 2; PInt 1; PInt 1; PFun "List" 2; PInt 1; PInt 2; PFun "LeafNode" 3; PSym "Newline"; PStr [10]; PFun "Association" 1; PFun "Rule" 2; PSym "Source"; PFun "List" 2; PFun "List" 2; PInt 1; PInt 2; PFun "List" 2; PInt 2; PInt 1; PFun "BinaryNode" 3; PSym "PatternTest"; PFun "List" 3; PFun "ErrorNode" 3; PSym "ExpectedOperand"; PStr []; PFun "Association" 1; PFun "Rule" 2; PSym "Source"; PFun "List" 2; PFun "List" 2; PInt 2; PInt 1; PFun "List" 2; PInt 2; PInt 1; PFun "LeafNode" 3; PSym "Question"; PStr [63]; PFun "Association" 1; PFun "Rule" 2; PSym "Source"; PFun "List" 2; PFun "List" 2; PInt 2; PInt 1; PFun "List" 2; PInt 2; PInt 2; PFun "LeafNode" 3; PSym "Symbol"; PStr [97]; PFun "Association" 1; PFun "Rule" 2; PSym "Source"; PFun "List" 2; PFun "List" 2; PInt 2; PInt 2; PFun "List" 2; PInt 2; PInt 3; PFun "Association" 1; PFun "Rule" 2; PSym "Source"; PFun "List" 2; PFun "List" 2; PInt 2; PInt 1; PFun "List" 2; PInt 2; PInt 3; PFun "LeafNode" 3; PSym "CloseCurly"; PStr [125]; PFun "Association" 1; PFun "Rule" 2; PSym "Source"; PFun "List" 2; PFun "List" 2; PInt 2; PInt 3; PFun "List" 2; PInt 2; PInt 4; PFun "Association" 1; PFun "Rule" 2; PSym "Source"; PFun "List" 2; PFun "List" 2; PInt 1; PInt 1; PFun "List" 2; PInt 2; PInt 4].
Proof. vm_compute. reflexivity. Qed.

(** Concrete.mt Concrete-20190227-H6C1K7 *)
Example wl_039 : cstp d1 [] =
  Some [PFun "List" 0].
Proof. vm_compute. reflexivity. Qed.

(** Concrete.mt Concrete-20190709-P9A0T8 *)
Example wl_040 : cstp d1 [102;91;98;32;58;32;99;93] =
  Some [PFun "List" 1; PFun "CallNode" 3; PFun "List" 1; PFun "LeafNode" 3; PSym "Symbol"; PStr [102]; PFun "Association" 1; PFun "Rule" 2; PSym "Source"; PFun "List" 2; PFun "List" 2; PInt 1; PInt 1; PFun "List" 2; PInt 1; PInt 2; PFun "GroupNode" 3; PSym "GroupSquare"; PFun "List" 3; PFun "LeafNode" 3; PSym "OpenSquare"; PStr [91]; PFun "Association" 1; PFun "Rule" 2; PSym "Source"; PFun "List" 2; PFun "List" 2; PInt 1; PInt 2; PFun "List" 2; PInt 1; PInt 3; PFun "BinaryNode" 3; PSym "Pattern"; PFun "List" 5; PFun "LeafNode" 3; PSym "Symbol"; PStr [98]; PFun "Association" 1; PFun "Rule" 2; PSym "Source"; PFun "List" 2; PFun "List" 2; PInt 1; PInt 3; PFun "List" 2; PInt 1; PInt 4; PFun "LeafNode" 3; PSym "Whitespace"; PStr [32]; PFun "Association" 1; PFun "Rule" 2; PSym "Source"; PFun "List" 2; PFun "List" 2; PInt 1; PInt 4; PFun "List" 2; PInt 1; PInt 5; PFun "LeafNode" 3; PSym "Colon"; PStr [58]; PFun "Association" 1; PFun "Rule" 2; PSym "Source"; PFun "List" 2; PFun "List" 2; PInt 1; PInt 5; PFun "List" 2; PInt 1; PInt 6; PFun "LeafNode" 3; PSym "Whitespace"; PStr [32]; PFun "Association" 1; PFun "Rule" 2; PSym "Source"; PFun "List" 2; PFun "List" 2; PInt 1; PInt 6; PFun "List" 2; PInt 1; PInt 7; PFun "LeafNode" 3; PSym "Symbol"; PStr [99]; PFun "Association" 1; PFun "Rule" 2; PSym "Source"; PFun "List" 2; PFun "List" 2; PInt 1; PInt 7; PFun "List" 2; PInt 1; PInt 8; PFun "Association" 1; PFun "Rule" 2; PSym "Source"; PFun "List" 2; PFun "List" 2; PInt 1; PInt 3; PFun "List" 2; PInt 1; PInt 8; PFun "LeafNode" 3; PSym "CloseSquare"; PStr [93]; PFun "Association" 1; PFun "Rule" 2; PSym "Source"; PFun "List" 2; PFun "List" 2; PInt 1; PInt 8; PFun "List" 2; PInt 1; PInt 9; PFun "Association" 1; PFun "Rule" 2; PSym "Source"; PFun "List" 2; PFun "List" 2; PInt 1; PInt 2; PFun "List" 2; PInt 1; PInt 9; PFun "Association" 1; PFun "Rule" 2; PSym "Source"; PFun "List" 2; PFun "List" 2; PInt 1; PInt 1; PFun "List" 2; PInt 1; PInt 9].
Proof. vm_compute. reflexivity. Qed.

(** Concrete.mt Concrete-20190717-L0P2V0 *)
Example wl_041 : cstp d1 [123;32;40;32;97;32;125] =
  Some [PFun "List" 1; PFun "GroupNode" 3; PSym "List"; PFun "List" 5; PFun "LeafNode" 3; PSym "OpenCurly"; PStr [123]; PFun "Association" 1; PFun "Rule" 2; PSym "Source"; PFun "List" 2; PFun "List" 2; PInt 1; PInt 1; PFun "List" 2; PInt 1; PInt 2; PFun "LeafNode" 3; PSym "Whitespace"; PStr [32]; PFun "Association" 1; PFun "Rule" 2; PSym "Source"; PFun "List" 2; PFun "List" 2; PInt 1; PInt 2; PFun "List" 2; PInt 1; PInt 3; PFun "GroupMissingCloserNode" 3; PSym "GroupParen"; PFun "List" 3; PFun "LeafNode" 3; PSym "OpenParen"; PStr [40]; PFun "Association" 1; PFun "Rule" 2; PSym "Source"; PFun "List" 2; PFun "List" 2; PInt 1; PInt 3; PFun "List" 2; PInt 1; PInt 4; PFun "LeafNode" 3; PSym "Whitespace"; PStr [32]; PFun "Association" 1; PFun "Rule" 2; PSym "Source"; PFun "List" 2; PFun "List" 2; PInt 1; PInt 4; PFun "List" 2; PInt 1; PInt 5; PFun "LeafNode" 3; PSym "Symbol"; PStr [97]; PFun "Association" 1; PFun "Rule" 2; PSym "Source"; PFun "List" 2; PFun "List" 2; PInt 1; PInt 5; PFun "List" 2; PInt 1; PInt 6; PFun "Association" 1; PFun "Rule" 2; PSym "Source"; PFun "List" 2; PFun "List" 2; PInt 1; PInt 3; PFun "List" 2; PInt 1; PInt 6; PFun "LeafNode" 3; PSym "Whitespace"; PStr [32]; PFun "Association" 1; PFun "Rule" 2; PSym "Source"; PFun "List" 2; PFun "List" 2; PInt 1; PInt 6; PFun "List" 2; PInt 1; PInt 7; PFun "LeafNode" 3; PSym "CloseCurly"; PStr [125]; PFun "Association" 1; PFun "Rule" 2; PSym "Source"; PFun "List" 2; PFun "List" 2; PInt 1; PInt 7; PFun "List" 2; PInt 1; PInt 8; PFun "Association" 1; PFun "Rule" 2; PSym "Source"; PFun "List" 2; PFun "List" 2; PInt 1; PInt 1; PFun "List" 2; PInt 1; PInt 8].
Proof. vm_compute. reflexivity. Qed.

(** Concrete.mt Concrete-20190717-N8D4U4 *)
Example wl_042 : cstp d1 [123;32;97;32;41;32;125] =
  Some [PFun "List" 1; PFun "GroupNode" 3; PSym "List"; PFun "List" 7; PFun "LeafNode" 3; PSym "OpenCurly"; PStr [123]; PFun "Association" 1; PFun "Rule" 2; PSym "Source"; PFun "List" 2; PFun "List" 2; PInt 1; PInt 1; PFun "List" 2; PInt 1; PInt 2; PFun "LeafNode" 3; PSym "Whitespace"; PStr [32]; PFun "Association" 1; PFun "Rule" 2; PSym "Source"; PFun "List" 2; PFun "List" 2; PInt 1; PInt 2; PFun "List" 2; PInt 1; PInt 3; PFun "LeafNode" 3; PSym "Symbol"; PStr [97]; PFun "Association" 1; PFun "Rule" 2; PSym "Source"; PFun "List" 2; PFun "List" 2; PInt 1; PInt 3; PFun "List" 2; PInt 1; PInt 4; PFun "LeafNode" 3; PSym "Whitespace"; PStr [32]; PFun "Association" 1; PFun "Rule" 2; PSym "Source"; PFun "List" 2; PFun "List" 2; PInt 1; PInt 4; PFun "List" 2; PInt 1; PInt 5; PFun "ErrorNode" 3; PSym "UnexpectedCloser"; PStr [41]; PFun "Association" 1; PFun "Rule" 2; PSym "Source"; PFun "List" 2; PFun "List" 2; PInt 1; PInt 5; PFun "List" 2; PInt 1; PInt 6; PFun "LeafNode" 3; PSym "Whitespace"; PStr [32]; PFun "Association" 1; PFun "Rule" 2; PSym "Source"; PFun "List" 2; PFun "List" 2; PInt 1; PInt 6; PFun "List" 2; PInt 1; PInt 7; PFun "LeafNode" 3; PSym "CloseCurly"; PStr [125]; PFun "Association" 1; PFun "Rule" 2; PSym "Source"; PFun "List" 2; PFun "List" 2; PInt 1; PInt 7; PFun "List" 2; PInt 1; PInt 8; PFun "Association" 1; PFun "Rule" 2; PSym "Source"; PFun "List" 2; PFun "List" 2; PInt 1; PInt 1; PFun "List" 2; PInt 1; PInt 8].
Proof. vm_compute. reflexivity. Qed.

(** Concrete.mt Concrete-20190914-U5A2R0 *)
Example wl_043 : cstp d1 [97;59;59;98;59;59;40;42;42;41;38] =
  Some [PFun "List" 1; PFun "PostfixNode" 3; PSym "Function"; PFun "List" 2; PFun "InfixNode" 3; PSym "Times"; PFun "List" 3; PFun "BinaryNode" 3; PSym "Span"; PFun "List" 3; PFun "LeafNode" 3; PSym "Symbol"; PStr [97]; PFun "Association" 1; PFun "Rule" 2; PSym "Source"; PFun "List" 2; PFun "List" 2; PInt 1; PInt 1; PFun "List" 2; PInt 1; PInt 2; PFun "LeafNode" 3; PSym "SemiSemi"; PStr [59;59]; PFun "Association" 1; PFun "Rule" 2; PSym "Source"; PFun "List" 2; PFun "List" 2; PInt 1; PInt 2; PFun "List" 2; PInt 1; PInt 4; PFun "LeafNode" 3; PSym "Symbol"; PStr [98]; PFun "Association" 1; PFun "Rule" 2; PSym "Source"; PFun "List" 2; PFun "List" 2; PInt 1; PInt 4; PFun "List" 2; PInt 1; PInt 5; PFun "Association" 1; PFun "Rule" 2; PSym "Source"; PFun "List" 2; PFun "List" 2; PInt 1; PInt 1; PFun "List" 2; PInt 1; PInt 5; PFun "LeafNode" 3; PSym "ImplicitTimes"; PStr []; PFun "Association" 1; PFun "Rule" 2; PSym "Source"; PFun "List" 2; PFun "List" 2; PInt 1; PInt 5; PFun "List" 2; PInt 1; PInt 5; PFun "BinaryNode" 3; PSym "Span"; PFun "List" 4; PFun "LeafNode" 3; PSym "ImplicitOne"; PStr []; PFun "Association" 1; PFun "Rule" 2; PSym "Source"; PFun "List" 2; PFun "List" 2; PInt 1; PInt 5; PFun "List" 2; PInt 1; PInt 5; PFun "LeafNode" 3; PSym "SemiSemi"; PStr [59;59]; PFun "Association" 1; PFun "Rule" 2; PSym "Source"; PFun "List" 2; PFun "List" 2; PInt 1; PInt 5; PFun "List" 2; PInt 1; PInt 7; PFun "LeafNode" 3; PSym "Comment"; PStr [40;42;42;41]; PFun "Association" 1; PFun "Rule" 2; PSym "Source"; PFun "List" 2; PFun "List" 2; PInt 1; PInt 7; PFun "List" 2; PInt 1; PInt 11; PFun "LeafNode" 3; PSym "ImplicitAll"; PStr []; PFun "Association" 1; PFun "Rule" 2; PSym "Source"; PFun "List" 2; PFun "List" 2; PInt 1; PInt 11; PFun "List" 2; PInt 1; PInt 11; PFun "Association" 1; PFun "Rule" 2; PSym "Source"; PFun "List" 2; PFun "List" 2; PInt 1; PInt 5; PFun "List" 2; PInt 1; PInt 11; PFun "Association" 1; PFun "Rule" 2; PSym "Source"; PFun "List" 2; PFun "List" 2; PInt 1; PInt 1; PFun "List" 2; PInt 1; PInt 11; PFun "LeafNode" 3; PSym "Amp"; PStr [38]; PFun "Association" 1; PFun "Rule" 2; PSym "Source"; PFun "List" 2; PFun "List" 2; PInt 1; PInt 11; PFun "List" 2; PInt 1; PInt 12; PFun "Association" 1; PFun "Rule" 2; PSym "Source"; PFun "List" 2; PFun "List" 2; PInt 1; PInt 1; PFun "List" 2; PInt 1; PInt 12].
Proof. vm_compute. reflexivity. Qed.

(** Concrete.mt Concrete-20190914-L1P0K2 *)
Example wl_044 : cstp d1 [97;59;40;42;42;41;38] =
  Some [PFun "List" 1; PFun "PostfixNode" 3; PSym "Function"; PFun "List" 2; PFun "InfixNode" 3; PSym "CompoundExpression"; PFun "List" 4; PFun "LeafNode" 3; PSym "Symbol"; PStr [97]; PFun "Association" 1; PFun "Rule" 2; PSym "Source"; PFun "List" 2; PFun "List" 2; PInt 1; PInt 1; PFun "List" 2; PInt 1; PInt 2; PFun "LeafNode" 3; PSym "Semi"; PStr [59]; PFun "Association" 1; PFun "Rule" 2; PSym "Source"; PFun "List" 2; PFun "List" 2; PInt 1; PInt 2; PFun "List" 2; PInt 1; PInt 3; PFun "LeafNode" 3; PSym "Comment"; PStr [40;42;42;41]; PFun "Association" 1; PFun "Rule" 2; PSym "Source"; PFun "List" 2; PFun "List" 2; PInt 1; PInt 3; PFun "List" 2; PInt 1; PInt 7; PFun "LeafNode" 3; PSym "ImplicitNull"; PStr []; PFun "Association" 1; PFun "Rule" 2; PSym "Source"; PFun "List" 2; PFun "List" 2; PInt 1; PInt 7; PFun "List" 2; PInt 1; PInt 7; PFun "Association" 1; PFun "Rule" 2; PSym "Source"; PFun "List" 2; PFun "List" 2; PInt 1; PInt 1; PFun "List" 2; PInt 1; PInt 7; PFun "LeafNode" 3; PSym "Amp"; PStr [38]; PFun "Association" 1; PFun "Rule" 2; PSym "Source"; PFun "List" 2; PFun "List" 2; PInt 1; PInt 7; PFun "List" 2; PInt 1; PInt 8; PFun "Association" 1; PFun "Rule" 2; PSym "Source"; PFun "List" 2; PFun "List" 2; PInt 1; PInt 1; PFun "List" 2; PInt 1; PInt 8].
Proof. vm_compute. reflexivity. Qed.

(** Concrete.mt Concrete-20190914-E0H4C5 *)
Example wl_045 : cstp d1 [97;59;40;42;42;41;59] =
  Some [PFun "List" 1; PFun "InfixNode" 3; PSym "CompoundExpression"; PFun "List" 6; PFun "LeafNode" 3; PSym "Symbol"; PStr [97]; PFun "Association" 1; PFun "Rule" 2; PSym "Source"; PFun "List" 2; PFun "List" 2; PInt 1; PInt 1; PFun "List" 2; PInt 1; PInt 2; PFun "LeafNode" 3; PSym "Semi"; PStr [59]; PFun "Association" 1; PFun "Rule" 2; PSym "Source"; PFun "List" 2; PFun "List" 2; PInt 1; PInt 2; PFun "List" 2; PInt 1; PInt 3; PFun "LeafNode" 3; PSym "Comment"; PStr [40;42;42;41]; PFun "Association" 1; PFun "Rule" 2; PSym "Source"; PFun "List" 2; PFun "List" 2; PInt 1; PInt 3; PFun "List" 2; PInt 1; PInt 7; PFun "LeafNode" 3; PSym "ImplicitNull"; PStr []; PFun "Association" 1; PFun "Rule" 2; PSym "Source"; PFun "List" 2; PFun "List" 2; PInt 1; PInt 7; PFun "List" 2; PInt 1; PInt 7; PFun "LeafNode" 3; PSym "Semi"; PStr [59]; PFun "Association" 1; PFun "Rule" 2; PSym "Source"; PFun "List" 2; PFun "List" 2; PInt 1; PInt 7; PFun "List" 2; PInt 1; PInt 8; PFun "LeafNode" 3; PSym "ImplicitNull"; PStr []; PFun "Association" 1; PFun "Rule" 2; PSym "Source"; PFun "List" 2; PFun "List" 2; PInt 1; PInt 8; PFun "List" 2; PInt 1; PInt 8; PFun "Association" 1; PFun "Rule" 2; PSym "Source"; PFun "List" 2; PFun "List" 2; PInt 1; PInt 1; PFun "List" 2; PInt 1; PInt 8].
Proof. vm_compute. reflexivity. Qed.

(** Concrete.mt Concrete-20190914-X0P1Q6 *)
Example wl_046 : cstp d1 [123;97;59;10;125] =
  Some [PFun "List" 1; PFun "GroupNode" 3; PSym "List"; PFun "List" 3; PFun "LeafNode" 3; PSym "OpenCurly"; PStr [123]; PFun "Association" 1; PFun "Rule" 2; PSym "Source"; PFun "List" 2; PFun "List" 2; PInt 1; PInt 1; PFun "List" 2; PInt 1; PInt 2; PFun "InfixNode" 3; PSym "CompoundExpression"; PFun "List" 4; PFun "LeafNode" 3; PSym "Symbol"; PStr [97]; PFun "Association" 1; PFun "Rule" 2; PSym "Source"; PFun "List" 2; PFun "List" 2; PInt 1; PInt 2; PFun "List" 2; PInt 1; PInt 3; PFun "LeafNode" 3; PSym "Semi"; PStr [59]; PFun "Association" 1; PFun "Rule" 2; PSym "Source"; PFun "List" 2; PFun "List" 2; PInt 1; PInt 3; PFun "List" 2; PInt 1; PInt 4; PFun "LeafNode" 3; PSym "Newline"; PStr [10]; PFun "Association" 1; PFun "Rule" 2; PSym "Source"; PFun "List" 2; PFun "List" 2; PInt 1; PInt 4; PFun "List" 2; PInt 2; PInt 1; PFun "LeafNode" 3; PSym "ImplicitNull"; PStr []; PFun "Association" 1; PFun "Rule" 2; PSym "Source"; PFun "List" 2; PFun "List" 2; PInt 2; PInt 1; PFun "List" 2; PInt 2; PInt 1; PFun "Association" 1; PFun "Rule" 2; PSym "Source"; PFun "List" 2; PFun "List" 2; PInt 1; PInt 2; PFun "List" 2; PInt 2; PInt 1; PFun "LeafNode" 3; PSym "CloseCurly"; PStr [125]; PFun "Association" 1; PFun "Rule" 2; PSym "Source"; PFun "List" 2; PFun "List" 2; PInt 2; PInt 1; PFun "List" 2; PInt 2; PInt 2; PFun "Association" 1; PFun "Rule" 2; PSym "Source"; PFun "List" 2; PFun "List" 2; PInt 1; PInt 1; PFun "List" 2; PInt 2; PInt 2].
Proof. vm_compute. reflexivity. Qed.

(** Concrete.mt Concrete-20190915-S7T5K8 *)
Example wl_047 : cstp d1 [97;40;42;42;41;58;98] =
  Some [PFun "List" 1; PFun "BinaryNode" 3; PSym "Pattern"; PFun "List" 4; PFun "LeafNode" 3; PSym "Symbol"; PStr [97]; PFun "Association" 1; PFun "Rule" 2; PSym "Source"; PFun "List" 2; PFun "List" 2; PInt 1; PInt 1; PFun "List" 2; PInt 1; PInt 2; PFun "LeafNode" 3; PSym "Comment"; PStr [40;42;42;41]; PFun "Association" 1; PFun "Rule" 2; PSym "Source"; PFun "List" 2; PFun "List" 2; PInt 1; PInt 2; PFun "List" 2; PInt 1; PInt 6; PFun "LeafNode" 3; PSym "Colon"; PStr [58]; PFun "Association" 1; PFun "Rule" 2; PSym "Source"; PFun "List" 2; PFun "List" 2; PInt 1; PInt 6; PFun "List" 2; PInt 1; PInt 7; PFun "LeafNode" 3; PSym "Symbol"; PStr [98]; PFun "Association" 1; PFun "Rule" 2; PSym "Source"; PFun "List" 2; PFun "List" 2; PInt 1; PInt 7; PFun "List" 2; PInt 1; PInt 8; PFun "Association" 1; PFun "Rule" 2; PSym "Source"; PFun "List" 2; PFun "List" 2; PInt 1; PInt 1; PFun "List" 2; PInt 1; PInt 8].
Proof. vm_compute. reflexivity. Qed.

(** Concrete.mt Concrete-20190915-E7Q5J3 *)
Example wl_048 : cstp d1 [97;58;40;42;42;41;98] =
  Some [PFun "List" 1; PFun "BinaryNode" 3; PSym "Pattern"; PFun "List" 4; PFun "LeafNode" 3; PSym "Symbol"; PStr [97]; PFun "Association" 1; PFun "Rule" 2; PSym "Source"; PFun "List" 2; PFun "List" 2; PInt 1; PInt 1; PFun "List" 2; PInt 1; PInt 2; PFun "LeafNode" 3; PSym "Colon"; PStr [58]; PFun "Association" 1; PFun "Rule" 2; PSym "Source"; PFun "List" 2; PFun "List" 2; PInt 1; PInt 2; PFun "List" 2; PInt 1; PInt 3; PFun "LeafNode" 3; PSym "Comment"; PStr [40;42;42;41]; PFun "Association" 1; PFun "Rule" 2; PSym "Source"; PFun "List" 2; PFun "List" 2; PInt 1; PInt 3; PFun "List" 2; PInt 1; PInt 7; PFun "LeafNode" 3; PSym "Symbol"; PStr [98]; PFun "Association" 1; PFun "Rule" 2; PSym "Source"; PFun "List" 2; PFun "List" 2; PInt 1; PInt 7; PFun "List" 2; PInt 1; PInt 8; PFun "Association" 1; PFun "Rule" 2; PSym "Source"; PFun "List" 2; PFun "List" 2; PInt 1; PInt 1; PFun "List" 2; PInt 1; PInt 8].
Proof. vm_compute. reflexivity. Qed.

(** Concrete.mt Concrete-20190915-Y4E3E1 *)
Example wl_049 : cstp d1 [59;59;40;42;42;41;42;50] =
  Some [PFun "List" 1; PFun "InfixNode" 3; PSym "Times"; PFun "List" 3; PFun "BinaryNode" 3; PSym "Span"; PFun "List" 4; PFun "LeafNode" 3; PSym "ImplicitOne"; PStr []; PFun "Association" 1; PFun "Rule" 2; PSym "Source"; PFun "List" 2; PFun "List" 2; PInt 1; PInt 1; PFun "List" 2; PInt 1; PInt 1; PFun "LeafNode" 3; PSym "SemiSemi"; PStr [59;59]; PFun "Association" 1; PFun "Rule" 2; PSym "Source"; PFun "List" 2; PFun "List" 2; PInt 1; PInt 1; PFun "List" 2; PInt 1; PInt 3; PFun "LeafNode" 3; PSym "Comment"; PStr [40;42;42;41]; PFun "Association" 1; PFun "Rule" 2; PSym "Source"; PFun "List" 2; PFun "List" 2; PInt 1; PInt 3; PFun "List" 2; PInt 1; PInt 7; PFun "LeafNode" 3; PSym "ImplicitAll"; PStr []; PFun "Association" 1; PFun "Rule" 2; PSym "Source"; PFun "List" 2; PFun "List" 2; PInt 1; PInt 7; PFun "List" 2; PInt 1; PInt 7; PFun "Association" 1; PFun "Rule" 2; PSym "Source"; PFun "List" 2; PFun "List" 2; PInt 1; PInt 1; PFun "List" 2; PInt 1; PInt 7; PFun "LeafNode" 3; PSym "Star"; PStr [42]; PFun "Association" 1; PFun "Rule" 2; PSym "Source"; PFun "List" 2; PFun "List" 2; PInt 1; PInt 7; PFun "List" 2; PInt 1; PInt 8; PFun "LeafNode" 3; PSym "Integer"; PStr [50]; PFun "Association" 1; PFun "Rule" 2; PSym "Source"; PFun "List" 2; PFun "List" 2; PInt 1; PInt 8; PFun "List" 2; PInt 1; PInt 9; PFun "Association" 1; PFun "Rule" 2; PSym "Source"; PFun "List" 2; PFun "List" 2; PInt 1; PInt 1; PFun "List" 2; PInt 1; PInt 9].
Proof. vm_compute. reflexivity. Qed.

(** Concrete.mt Concrete-20190916-X5M4H9 *)
Example wl_050 : cstp d1 [123;32;104;101;97;100;73;110;95;95;32;125] =
  Some [PFun "List" 1; PFun "GroupNode" 3; PSym "List"; PFun "List" 5; PFun "LeafNode" 3; PSym "OpenCurly"; PStr [123]; PFun "Association" 1; PFun "Rule" 2; PSym "Source"; PFun "List" 2; PFun "List" 2; PInt 1; PInt 1; PFun "List" 2; PInt 1; PInt 2; PFun "LeafNode" 3; PSym "Whitespace"; PStr [32]; PFun "Association" 1; PFun "Rule" 2; PSym "Source"; PFun "List" 2; PFun "List" 2; PInt 1; PInt 2; PFun "List" 2; PInt 1; PInt 3; PFun "CompoundNode" 3; PSym "PatternBlankSequence"; PFun "List" 2; PFun "LeafNode" 3; PSym "Symbol"; PStr [104;101;97;100;73;110]; PFun "Association" 1; PFun "Rule" 2; PSym "Source"; PFun "List" 2; PFun "List" 2; PInt 1; PInt 3; PFun "List" 2; PInt 1; PInt 9; PFun "LeafNode" 3; PSym "UnderUnder"; PStr [95;95]; PFun "Association" 1; PFun "Rule" 2; PSym "Source"; PFun "List" 2; PFun "List" 2; PInt 1; PInt 9; PFun "List" 2; PInt 1; PInt 11; PFun "Association" 1; PFun "Rule" 2; PSym "Source"; PFun "List" 2; PFun "List" 2; PInt 1; PInt 3; PFun "List" 2; PInt 1; PInt 11; PFun "LeafNode" 3; PSym "Whitespace"; PStr [32]; PFun "Association" 1; PFun "Rule" 2; PSym "Source"; PFun "List" 2; PFun "List" 2; PInt 1; PInt 11; PFun "List" 2; PInt 1; PInt 12; PFun "LeafNode" 3; PSym "CloseCurly"; PStr [125]; PFun "Association" 1; PFun "Rule" 2; PSym "Source"; PFun "List" 2; PFun "List" 2; PInt 1; PInt 12; PFun "List" 2; PInt 1; PInt 13; PFun "Association" 1; PFun "Rule" 2; PSym "Source"; PFun "List" 2; PFun "List" 2; PInt 1; PInt 1; PFun "List" 2; PInt 1; PInt 13].
Proof. vm_compute. reflexivity. Qed.

(** Concrete.mt Concrete-20190916-L9G1L8 *)
Example wl_051 : cstp d1 [97;40;42;49;42;41;43;40;42;50;42;41;98;40;42;51;42;41;59] =
  Some [PFun "List" 1; PFun "InfixNode" 3; PSym "CompoundExpression"; PFun "List" 4; PFun "InfixNode" 3; PSym "Plus"; PFun "List" 5; PFun "LeafNode" 3; PSym "Symbol"; PStr [97]; PFun "Association" 1; PFun "Rule" 2; PSym "Source"; PFun "List" 2; PFun "List" 2; PInt 1; PInt 1; PFun "List" 2; PInt 1; PInt 2; PFun "LeafNode" 3; PSym "Comment"; PStr [40;42;49;42;41]; PFun "Association" 1; PFun "Rule" 2; PSym "Source"; PFun "List" 2; PFun "List" 2; PInt 1; PInt 2; PFun "List" 2; PInt 1; PInt 7; PFun "LeafNode" 3; PSym "Plus"; PStr [43]; PFun "Association" 1; PFun "Rule" 2; PSym "Source"; PFun "List" 2; PFun "List" 2; PInt 1; PInt 7; PFun "List" 2; PInt 1; PInt 8; PFun "LeafNode" 3; PSym "Comment"; PStr [40;42;50;42;41]; PFun "Association" 1; PFun "Rule" 2; PSym "Source"; PFun "List" 2; PFun "List" 2; PInt 1; PInt 8; PFun "List" 2; PInt 1; PInt 13; PFun "LeafNode" 3; PSym "Symbol"; PStr [98]; PFun "Association" 1; PFun "Rule" 2; PSym "Source"; PFun "List" 2; PFun "List" 2; PInt 1; PInt 13; PFun "List" 2; PInt 1; PInt 14; PFun "Association" 1; PFun "Rule" 2; PSym "Source"; PFun "List" 2; PFun "List" 2; PInt 1; PInt 1; PFun "List" 2; PInt 1; PInt 14; PFun "LeafNode" 3; PSym "Comment"; PStr [40;42;51;42;41]; PFun "Association" 1; PFun "Rule" 2; PSym "Source"; PFun "List" 2; PFun "List" 2; PInt 1; PInt 14; PFun "List" 2; PInt 1; PInt 19; PFun "LeafNode" 3; PSym "Semi"; PStr [59]; PFun "Association" 1; PFun "Rule" 2; PSym "Source"; PFun "List" 2; PFun "List" 2; PInt 1; PInt 19; PFun "List" 2; PInt 1; PInt 20; PFun "LeafNode" 3; PSym "ImplicitNull"; PStr []; PFun "Association" 1; PFun "Rule" 2; PSym "Source"; PFun "List" 2; PFun "List" 2; PInt 1; PInt 20; PFun "List" 2; PInt 1; PInt 20; PFun "Association" 1; PFun "Rule" 2; PSym "Source"; PFun "List" 2; PFun "List" 2; PInt 1; PInt 1; PFun "List" 2; PInt 1; PInt 20].
Proof. vm_compute. reflexivity. Qed.

(** Concrete.mt Concrete-20190916-U0Q1K6 *)
Example wl_052 : cstp d1 [123;40;42;49;42;41;91;40;42;50;42;41;93;40;42;51;42;41;125] =
  Some [PFun "List" 1; PFun "GroupNode" 3; PSym "List"; PFun "List" 5; PFun "LeafNode" 3; PSym "OpenCurly"; PStr [123]; PFun "Association" 1; PFun "Rule" 2; PSym "Source"; PFun "List" 2; PFun "List" 2; PInt 1; PInt 1; PFun "List" 2; PInt 1; PInt 2; PFun "LeafNode" 3; PSym "Comment"; PStr [40;42;49;42;41]; PFun "Association" 1; PFun "Rule" 2; PSym "Source"; PFun "List" 2; PFun "List" 2; PInt 1; PInt 2; PFun "List" 2; PInt 1; PInt 7; PFun "GroupNode" 3; PSym "GroupSquare"; PFun "List" 3; PFun "LeafNode" 3; PSym "OpenSquare"; PStr [91]; PFun "Association" 1; PFun "Rule" 2; PSym "Source"; PFun "List" 2; PFun "List" 2; PInt 1; PInt 7; PFun "List" 2; PInt 1; PInt 8; PFun "LeafNode" 3; PSym "Comment"; PStr [40;42;50;42;41]; PFun "Association" 1; PFun "Rule" 2; PSym "Source"; PFun "List" 2; PFun "List" 2; PInt 1; PInt 8; PFun "List" 2; PInt 1; PInt 13; PFun "LeafNode" 3; PSym "CloseSquare"; PStr [93]; PFun "Association" 1; PFun "Rule" 2; PSym "Source"; PFun "List" 2; PFun "List" 2; PInt 1; PInt 13; PFun "List" 2; PInt 1; PInt 14; PFun "Association" 1; PFun "Rule" 2; PSym "Source"; PFun "List" 2; PFun "List" 2; PInt 1; PInt 7; PFun "List" 2; PInt 1; PInt 14; PFun "LeafNode" 3; PSym "Comment"; PStr [40;42;51;42;41]; PFun "Association" 1; PFun "Rule" 2; PSym "Source"; PFun "List" 2; PFun "List" 2; PInt 1; PInt 14; PFun "List" 2; PInt 1; PInt 19; PFun "LeafNode" 3; PSym "CloseCurly"; PStr [125]; PFun "Association" 1; PFun "Rule" 2; PSym "Source"; PFun "List" 2; PFun "List" 2; PInt 1; PInt 19; PFun "List" 2; PInt 1; PInt 20; PFun "Association" 1; PFun "Rule" 2; PSym "Source"; PFun "List" 2; PFun "List" 2; PInt 1; PInt 1; PFun "List" 2; PInt 1; PInt 20].
Proof. vm_compute. reflexivity. Qed.

(** Concrete.mt Concrete-20190916-C5C7M2 *)
Example wl_053 : cstp d1 [123;40;42;48;42;41;97;40;42;49;42;41;44;40;42;50;42;41;98;40;42;51;42;41;125] =
  Some [PFun "List" 1; PFun "GroupNode" 3; PSym "List"; PFun "List" 5; PFun "LeafNode" 3; PSym "OpenCurly"; PStr [123]; PFun "Association" 1; PFun "Rule" 2; PSym "Source"; PFun "List" 2; PFun "List" 2; PInt 1; PInt 1; PFun "List" 2; PInt 1; PInt 2; PFun "LeafNode" 3; PSym "Comment"; PStr [40;42;48;42;41]; PFun "Association" 1; PFun "Rule" 2; PSym "Source"; PFun "List" 2; PFun "List" 2; PInt 1; PInt 2; PFun "List" 2; PInt 1; PInt 7; PFun "InfixNode" 3; PSym "Comma"; PFun "List" 5; PFun "LeafNode" 3; PSym "Symbol"; PStr [97]; PFun "Association" 1; PFun "Rule" 2; PSym "Source"; PFun "List" 2; PFun "List" 2; PInt 1; PInt 7; PFun "List" 2; PInt 1; PInt 8; PFun "LeafNode" 3; PSym "Comment"; PStr [40;42;49;42;41]; PFun "Association" 1; PFun "Rule" 2; PSym "Source"; PFun "List" 2; PFun "List" 2; PInt 1; PInt 8; PFun "List" 2; PInt 1; PInt 13; PFun "LeafNode" 3; PSym "Comma"; PStr [44]; PFun "Association" 1; PFun "Rule" 2; PSym "Source"; PFun "List" 2; PFun "List" 2; PInt 1; PInt 13; PFun "List" 2; PInt 1; PInt 14; PFun "LeafNode" 3; PSym "Comment"; PStr [40;42;50;42;41]; PFun "Association" 1; PFun "Rule" 2; PSym "Source"; PFun "List" 2; PFun "List" 2; PInt 1; PInt 14; PFun "List" 2; PInt 1; PInt 19; PFun "LeafNode" 3; PSym "Symbol"; PStr [98]; PFun "Association" 1; PFun "Rule" 2; PSym "Source"; PFun "List" 2; PFun "List" 2; PInt 1; PInt 19; PFun "List" 2; PInt 1; PInt 20; PFun "Association" 1; PFun "Rule" 2; PSym "Source"; PFun "List" 2; PFun "List" 2; PInt 1; PInt 7; PFun "List" 2; PInt 1; PInt 20; PFun "LeafNode" 3; PSym "Comment"; PStr [40;42;51;42;41]; PFun "Association" 1; PFun "Rule" 2; PSym "Source"; PFun "List" 2; PFun "List" 2; PInt 1; PInt 20; PFun "List" 2; PInt 1; PInt 25; PFun "LeafNode" 3; PSym "CloseCurly"; PStr [125]; PFun "Association" 1; PFun "Rule" 2; PSym "Source"; PFun "List" 2; PFun "List" 2; PInt 1; PInt 25; PFun "List" 2; PInt 1; PInt 26; PFun "Association" 1; PFun "Rule" 2; PSym "Source"; PFun "List" 2; PFun "List" 2; PInt 1; PInt 1; PFun "List" 2; PInt 1; PInt 26].
Proof. vm_compute. reflexivity. Qed.

(** Concrete.mt Concrete-20190916-N2A8O1 *)
Example wl_054 : cstp d1 [97;61;46;46] =
  Some [PFun "List" 1; PFun "BinaryNode" 3; PSym "Set"; PFun "List" 3; PFun "LeafNode" 3; PSym "Symbol"; PStr [97]; PFun "Association" 1; PFun "Rule" 2; PSym "Source"; PFun "List" 2; PFun "List" 2; PInt 1; PInt 1; PFun "List" 2; PInt 1; PInt 2; PFun "LeafNode" 3; PSym "Equal"; PStr [61]; PFun "Association" 1; PFun "Rule" 2; PSym "Source"; PFun "List" 2; PFun "List" 2; PInt 1; PInt 2; PFun "List" 2; PInt 1; PInt 3; PFun "PostfixNode" 3; PSym "Repeated"; PFun "List" 2; PFun "ErrorNode" 3; PSym "ExpectedOperand"; PStr []; PFun "Association" 1; PFun "Rule" 2; PSym "Source"; PFun "List" 2; PFun "List" 2; PInt 1; PInt 3; PFun "List" 2; PInt 1; PInt 3; PFun "LeafNode" 3; PSym "DotDot"; PStr [46;46]; PFun "Association" 1; PFun "Rule" 2; PSym "Source"; PFun "List" 2; PFun "List" 2; PInt 1; PInt 3; PFun "List" 2; PInt 1; PInt 5; PFun "Association" 1; PFun "Rule" 2; PSym "Source"; PFun "List" 2; PFun "List" 2; PInt 1; PInt 3; PFun "List" 2; PInt 1; PInt 5; PFun "Association" 1; PFun "Rule" 2; PSym "Source"; PFun "List" 2; PFun "List" 2; PInt 1; PInt 1; PFun "List" 2; PInt 1; PInt 5].
Proof. vm_compute. reflexivity. Qed.

(** Concrete.mt Concrete-20190928-H3B3V1 *)
Example wl_055 : cstp d1 [97;126;102;126;98] =
  Some [PFun "List" 1; PFun "TernaryNode" 3; PSym "TernaryTilde"; PFun "List" 5; PFun "LeafNode" 3; PSym "Symbol"; PStr [97]; PFun "Association" 1; PFun "Rule" 2; PSym "Source"; PFun "List" 2; PFun "List" 2; PInt 1; PInt 1; PFun "List" 2; PInt 1; PInt 2; PFun "LeafNode" 3; PSym "Tilde"; PStr [126]; PFun "Association" 1; PFun "Rule" 2; PSym "Source"; PFun "List" 2; PFun "List" 2; PInt 1; PInt 2; PFun "List" 2; PInt 1; PInt 3; PFun "LeafNode" 3; PSym "Symbol"; PStr [102]; PFun "Association" 1; PFun "Rule" 2; PSym "Source"; PFun "List" 2; PFun "List" 2; PInt 1; PInt 3; PFun "List" 2; PInt 1; PInt 4; PFun "LeafNode" 3; PSym "Tilde"; PStr [126]; PFun "Association" 1; PFun "Rule" 2; PSym "Source"; PFun "List" 2; PFun "List" 2; PInt 1; PInt 4; PFun "List" 2; PInt 1; PInt 5; PFun "LeafNode" 3; PSym "Symbol"; PStr [98]; PFun "Association" 1; PFun "Rule" 2; PSym "Source"; PFun "List" 2; PFun "List" 2; PInt 1; PInt 5; PFun "List" 2; PInt 1; PInt 6; PFun "Association" 1; PFun "Rule" 2; PSym "Source"; PFun "List" 2; PFun "List" 2; PInt 1; PInt 1; PFun "List" 2; PInt 1; PInt 6].
Proof. vm_compute. reflexivity. Qed.

(** Concrete.mt Concrete-20190929-V7J8D5 *)
Example wl_056 : cstp d1 [97;32;47;58;32;98;32;61;32;40;99;32;61;32;100;41] =
  Some [PFun "List" 1; PFun "TernaryNode" 3; PSym "TagSet"; PFun "List" 9; PFun "LeafNode" 3; PSym "Symbol"; PStr [97]; PFun "Association" 1; PFun "Rule" 2; PSym "Source"; PFun "List" 2; PFun "List" 2; PInt 1; PInt 1; PFun "List" 2; PInt 1; PInt 2; PFun "LeafNode" 3; PSym "Whitespace"; PStr [32]; PFun "Association" 1; PFun "Rule" 2; PSym "Source"; PFun "List" 2; PFun "List" 2; PInt 1; PInt 2; PFun "List" 2; PInt 1; PInt 3; PFun "LeafNode" 3; PSym "SlashColon"; PStr [47;58]; PFun "Association" 1; PFun "Rule" 2; PSym "Source"; PFun "List" 2; PFun "List" 2; PInt 1; PInt 3; PFun "List" 2; PInt 1; PInt 5; PFun "LeafNode" 3; PSym "Whitespace"; PStr [32]; PFun "Association" 1; PFun "Rule" 2; PSym "Source"; PFun "List" 2; PFun "List" 2; PInt 1; PInt 5; PFun "List" 2; PInt 1; PInt 6; PFun "LeafNode" 3; PSym "Symbol"; PStr [98]; PFun "Association" 1; PFun "Rule" 2; PSym "Source"; PFun "List" 2; PFun "List" 2; PInt 1; PInt 6; PFun "List" 2; PInt 1; PInt 7; PFun "LeafNode" 3; PSym "Whitespace"; PStr [32]; PFun "Association" 1; PFun "Rule" 2; PSym "Source"; PFun "List" 2; PFun "List" 2; PInt 1; PInt 7; PFun "List" 2; PInt 1; PInt 8; PFun "LeafNode" 3; PSym "Equal"; PStr [61]; PFun "Association" 1; PFun "Rule" 2; PSym "Source"; PFun "List" 2; PFun "List" 2; PInt 1; PInt 8; PFun "List" 2; PInt 1; PInt 9; PFun "LeafNode" 3; PSym "Whitespace"; PStr [32]; PFun "Association" 1; PFun "Rule" 2; PSym "Source"; PFun "List" 2; PFun "List" 2; PInt 1; PInt 9; PFun "List" 2; PInt 1; PInt 10; PFun "GroupNode" 3; PSym "GroupParen"; PFun "List" 3; PFun "LeafNode" 3; PSym "OpenParen"; PStr [40]; PFun "Association" 1; PFun "Rule" 2; PSym "Source"; PFun "List" 2; PFun "List" 2; PInt 1; PInt 10; PFun "List" 2; PInt 1; PInt 11; PFun "BinaryNode" 3; PSym "Set"; PFun "List" 5; PFun "LeafNode" 3; PSym "Symbol"; PStr [99]; PFun "Association" 1; PFun "Rule" 2; PSym "Source"; PFun "List" 2; PFun "List" 2; PInt 1; PInt 11; PFun "List" 2; PInt 1; PInt 12; PFun "LeafNode" 3; PSym "Whitespace"; PStr [32]; PFun "Association" 1; PFun "Rule" 2; PSym "Source"; PFun "List" 2; PFun "List" 2; PInt 1; PInt 12; PFun "List" 2; PInt 1; PInt 13; PFun "LeafNode" 3; PSym "Equal"; PStr [61]; PFun "Association" 1; PFun "Rule" 2; PSym "Source"; PFun "List" 2; PFun "List" 2; PInt 1; PInt 13; PFun "List" 2; PInt 1; PInt 14; PFun "LeafNode" 3; PSym "Whitespace"; PStr [32]; PFun "Association" 1; PFun "Rule" 2; PSym "Source"; PFun "List" 2; PFun "List" 2; PInt 1; PInt 14; PFun "List" 2; PInt 1; PInt 15; PFun "LeafNode" 3; PSym "Symbol"; PStr [100]; PFun "Association" 1; PFun "Rule" 2; PSym "Source"; PFun "List" 2; PFun "List" 2; PInt 1; PInt 15; PFun "List" 2; PInt 1; PInt 16; PFun "Association" 1; PFun "Rule" 2; PSym "Source"; PFun "List" 2; PFun "List" 2; PInt 1; PInt 11; PFun "List" 2; PInt 1; PInt 16; PFun "LeafNode" 3; PSym "CloseParen"; PStr [41]; PFun "Association" 1; PFun "Rule" 2; PSym "Source"; PFun "List" 2; PFun "List" 2; PInt 1; PInt 16; PFun "List" 2; PInt 1; PInt 17; PFun "Association" 1; PFun "Rule" 2; PSym "Source"; PFun "List" 2; PFun "List" 2; PInt 1; PInt 10; PFun "List" 2; PInt 1; PInt 17; PFun "Association" 1; PFun "Rule" 2; PSym "Source"; PFun "List" 2; PFun "List" 2; PInt 1; PInt 1; PFun "List" 2; PInt 1; PInt 17].
Proof. vm_compute. reflexivity. Qed.

(** Concrete.mt Concrete-20191012-S7X3B0 *)
Example wl_057 : cstp d1 [123;32;64;64;32;125] =
  Some [PFun "List" 1; PFun "GroupNode" 3; PSym "List"; PFun "List" 4; PFun "LeafNode" 3; PSym "OpenCurly"; PStr [123]; PFun "Association" 1; PFun "Rule" 2; PSym "Source"; PFun "List" 2; PFun "List" 2; PInt 1; PInt 1; PFun "List" 2; PInt 1; PInt 2; PFun "LeafNode" 3; PSym "Whitespace"; PStr [32]; PFun "Association" 1; PFun "Rule" 2; PSym "Source"; PFun "List" 2; PFun "List" 2; PInt 1; PInt 2; PFun "List" 2; PInt 1; PInt 3; PFun "BinaryNode" 3; PSym "Apply"; PFun "List" 4; PFun "ErrorNode" 3; PSym "ExpectedOperand"; PStr []; PFun "Association" 1; PFun "Rule" 2; PSym "Source"; PFun "List" 2; PFun "List" 2; PInt 1; PInt 3; PFun "List" 2; PInt 1; PInt 3; PFun "LeafNode" 3; PSym "AtAt"; PStr [64;64]; PFun "Association" 1; PFun "Rule" 2; PSym "Source"; PFun "List" 2; PFun "List" 2; PInt 1; PInt 3; PFun "List" 2; PInt 1; PInt 5; PFun "LeafNode" 3; PSym "Whitespace"; PStr [32]; PFun "Association" 1; PFun "Rule" 2; PSym "Source"; PFun "List" 2; PFun "List" 2; PInt 1; PInt 5; PFun "List" 2; PInt 1; PInt 6; PFun "ErrorNode" 3; PSym "ExpectedOperand"; PStr []; PFun "Association" 1; PFun "Rule" 2; PSym "Source"; PFun "List" 2; PFun "List" 2; PInt 1; PInt 6; PFun "List" 2; PInt 1; PInt 6; PFun "Association" 1; PFun "Rule" 2; PSym "Source"; PFun "List" 2; PFun "List" 2; PInt 1; PInt 3; PFun "List" 2; PInt 1; PInt 6; PFun "LeafNode" 3; PSym "CloseCurly"; PStr [125]; PFun "Association" 1; PFun "Rule" 2; PSym "Source"; PFun "List" 2; PFun "List" 2; PInt 1; PInt 6; PFun "List" 2; PInt 1; PInt 7; PFun "Association" 1; PFun "Rule" 2; PSym "Source"; PFun "List" 2; PFun "List" 2; PInt 1; PInt 1; PFun "List" 2; PInt 1; PInt 7].
Proof. vm_compute. reflexivity. Qed.

(** Concrete.mt Concrete-20191024-X1D5H3 *)
Example wl_058 : cstp d1 [34;97;92;92;13;10;98;34] =
  Some [PFun "List" 1; PFun "LeafNode" 3; PSym "String"; PStr [34;97;92;92;13;10;98;34]; PFun "Association" 1; PFun "Rule" 2; PSym "Source"; PFun "List" 2; PFun "List" 2; PInt 1; PInt 1; PFun "List" 2; PInt 2; PInt 3].
Proof. vm_compute. reflexivity. Qed.

(** Concrete.mt Concrete-20191117-M2R5P9 *)
Example wl_059 : cstp d1 [94;32] =
  Some [PFun "List" 1; PFun "BinaryNode" 3; PSym "Power"; PFun "List" 4; PFun "ErrorNode" 3; PSym "ExpectedOperand"; PStr []; PFun "Association" 1; PFun "Rule" 2; PSym "Source"; PFun "List" 2; PFun "List" 2; PInt 1; PInt 1; PFun "List" 2; PInt 1; PInt 1; PFun "LeafNode" 3; PSym "Caret"; PStr [94]; PFun "Association" 1; PFun "Rule" 2; PSym "Source"; PFun "List" 2; PFun "List" 2; PInt 1; PInt 1; PFun "List" 2; PInt 1; PInt 2; PFun "LeafNode" 3; PSym "Whitespace"; PStr [32]; PFun "Association" 1; PFun "Rule" 2; PSym "Source"; PFun "List" 2; PFun "List" 2; PInt 1; PInt 2; PFun "List" 2; PInt 1; PInt 3; PFun "ErrorNode" 3; PSym "ExpectedOperand"; PStr []; PFun "Association" 1; PFun "Rule" 2; PSym "Source"; PFun "List" 2; PFun "List" 2; PInt 1; PInt 3; PFun "List" 2; PInt 1; PInt 3; PFun "Association" 1; PFun "Rule" 2; PSym "Source"; PFun "List" 2; PFun "List" 2; PInt 1; PInt 1; PFun "List" 2; PInt 1; PInt 3].
Proof. vm_compute. reflexivity. Qed.

(** Concrete.mt Concrete-20191209-I8G4F9 *)
Example wl_060 : cstp d1 [40;42;41;97] =
  Some [PFun "List" 1; PFun "ErrorNode" 3; PSym "UnterminatedComment"; PStr [40;42;41;97]; PFun "Association" 1; PFun "Rule" 2; PSym "Source"; PFun "List" 2; PFun "List" 2; PInt 1; PInt 1; PFun "List" 2; PInt 1; PInt 5].
Proof. vm_compute. reflexivity. Qed.

(** Concrete.mt Concrete-20191209-A4X1E9 *)
Example wl_061 : cstp d1 [49;50;94;94;97;46;97] =
  Some [PFun "List" 1; PFun "LeafNode" 3; PSym "Real"; PStr [49;50;94;94;97;46;97]; PFun "Association" 1; PFun "Rule" 2; PSym "Source"; PFun "List" 2; PFun "List" 2; PInt 1; PInt 1; PFun "List" 2; PInt 1; PInt 8].
Proof. vm_compute. reflexivity. Qed.

(** Concrete.mt Concrete-20191210-U8V1Y3 *)
Example wl_062 : cstp d1 [40;42;92;97;42;41] =
  Some [PFun "List" 1; PFun "LeafNode" 3; PSym "Comment"; PStr [40;42;92;97;42;41]; PFun "Association" 1; PFun "Rule" 2; PSym "Source"; PFun "List" 2; PFun "List" 2; PInt 1; PInt 1; PFun "List" 2; PInt 1; PInt 7].
Proof. vm_compute. reflexivity. Qed.

(** Concrete.mt Concrete-20200315-D8O6E4 *)
Example wl_063 : cstp d1 [97;32;43;32;124;32;50] =
  Some [PFun "List" 1; PFun "InfixNode" 3; PSym "Alternatives"; PFun "List" 4; PFun "InfixNode" 3; PSym "Plus"; PFun "List" 5; PFun "LeafNode" 3; PSym "Symbol"; PStr [97]; PFun "Association" 1; PFun "Rule" 2; PSym "Source"; PFun "List" 2; PFun "List" 2; PInt 1; PInt 1; PFun "List" 2; PInt 1; PInt 2; PFun "LeafNode" 3; PSym "Whitespace"; PStr [32]; PFun "Association" 1; PFun "Rule" 2; PSym "Source"; PFun "List" 2; PFun "List" 2; PInt 1; PInt 2; PFun "List" 2; PInt 1; PInt 3; PFun "LeafNode" 3; PSym "Plus"; PStr [43]; PFun "Association" 1; PFun "Rule" 2; PSym "Source"; PFun "List" 2; PFun "List" 2; PInt 1; PInt 3; PFun "List" 2; PInt 1; PInt 4; PFun "LeafNode" 3; PSym "Whitespace"; PStr [32]; PFun "Association" 1; PFun "Rule" 2; PSym "Source"; PFun "List" 2; PFun "List" 2; PInt 1; PInt 4; PFun "List" 2; PInt 1; PInt 5; PFun "ErrorNode" 3; PSym "ExpectedOperand"; PStr []; PFun "Association" 1; PFun "Rule" 2; PSym "Source"; PFun "List" 2; PFun "List" 2; PInt 1; PInt 5; PFun "List" 2; PInt 1; PInt 5; PFun "Association" 1; PFun "Rule" 2; PSym "Source"; PFun "List" 2; PFun "List" 2; PInt 1; PInt 1; PFun "List" 2; PInt 1; PInt 5; PFun "LeafNode" 3; PSym "Bar"; PStr [124]; PFun "Association" 1; PFun "Rule" 2; PSym "Source"; PFun "List" 2; PFun "List" 2; PInt 1; PInt 5; PFun "List" 2; PInt 1; PInt 6; PFun "LeafNode" 3; PSym "Whitespace"; PStr [32]; PFun "Association" 1; PFun "Rule" 2; PSym "Source"; PFun "List" 2; PFun "List" 2; PInt 1; PInt 6; PFun "List" 2; PInt 1; PInt 7; PFun "LeafNode" 3; PSym "Integer"; PStr [50]; PFun "Association" 1; PFun "Rule" 2; PSym "Source"; PFun "List" 2; PFun "List" 2; PInt 1; PInt 7; PFun "List" 2; PInt 1; PInt 8; PFun "Association" 1; PFun "Rule" 2; PSym "Source"; PFun "List" 2; PFun "List" 2; PInt 1; PInt 1; PFun "List" 2; PInt 1; PInt 8].
Proof. vm_compute. reflexivity. Qed.

(** Concrete.mt Concrete-20200324-R3E5O1 *)
Example wl_064 : cstp d1 [97;32;98;32;99] =
  Some [PFun "List" 1; PFun "InfixNode" 3; PSym "Times"; PFun "List" 7; PFun "LeafNode" 3; PSym "Symbol"; PStr [97]; PFun "Association" 1; PFun "Rule" 2; PSym "Source"; PFun "List" 2; PFun "List" 2; PInt 1; PInt 1; PFun "List" 2; PInt 1; PInt 2; PFun "LeafNode" 3; PSym "Whitespace"; PStr [32]; PFun "Association" 1; PFun "Rule" 2; PSym "Source"; PFun "List" 2; PFun "List" 2; PInt 1; PInt 2; PFun "List" 2; PInt 1; PInt 3; PFun "LeafNode" 3; PSym "ImplicitTimes"; PStr []; PFun "Association" 1; PFun "Rule" 2; PSym "Source"; PFun "List" 2; PFun "List" 2; PInt 1; PInt 3; PFun "List" 2; PInt 1; PInt 3; PFun "LeafNode" 3; PSym "Symbol"; PStr [98]; PFun "Association" 1; PFun "Rule" 2; PSym "Source"; PFun "List" 2; PFun "List" 2; PInt 1; PInt 3; PFun "List" 2; PInt 1; PInt 4; PFun "LeafNode" 3; PSym "Whitespace"; PStr [32]; PFun "Association" 1; PFun "Rule" 2; PSym "Source"; PFun "List" 2; PFun "List" 2; PInt 1; PInt 4; PFun "List" 2; PInt 1; PInt 5; PFun "LeafNode" 3; PSym "ImplicitTimes"; PStr []; PFun "Association" 1; PFun "Rule" 2; PSym "Source"; PFun "List" 2; PFun "List" 2; PInt 1; PInt 5; PFun "List" 2; PInt 1; PInt 5; PFun "LeafNode" 3; PSym "Symbol"; PStr [99]; PFun "Association" 1; PFun "Rule" 2; PSym "Source"; PFun "List" 2; PFun "List" 2; PInt 1; PInt 5; PFun "List" 2; PInt 1; PInt 6; PFun "Association" 1; PFun "Rule" 2; PSym "Source"; PFun "List" 2; PFun "List" 2; PInt 1; PInt 1; PFun "List" 2; PInt 1; PInt 6].
Proof. vm_compute. reflexivity. Qed.

(** Concrete.mt Concrete-20200404-E3L1E3 *)
Example wl_065 : cstp d1 [49;42;94;45;50] =
  Some [PFun "List" 1; PFun "LeafNode" 3; PSym "Rational"; PStr [49;42;94;45;50]; PFun "Association" 1; PFun "Rule" 2; PSym "Source"; PFun "List" 2; PFun "List" 2; PInt 1; PInt 1; PFun "List" 2; PInt 1; PInt 6].
Proof. vm_compute. reflexivity. Qed.

(** Concrete.mt Concrete-20200602-Q2L0J5 *)
Example wl_066 : cstp d1 [97;44;42;98] =
  Some [PFun "List" 1; PFun "InfixNode" 3; PSym "Comma"; PFun "List" 3; PFun "LeafNode" 3; PSym "Symbol"; PStr [97]; PFun "Association" 1; PFun "Rule" 2; PSym "Source"; PFun "List" 2; PFun "List" 2; PInt 1; PInt 1; PFun "List" 2; PInt 1; PInt 2; PFun "LeafNode" 3; PSym "Comma"; PStr [44]; PFun "Association" 1; PFun "Rule" 2; PSym "Source"; PFun "List" 2; PFun "List" 2; PInt 1; PInt 2; PFun "List" 2; PInt 1; PInt 3; PFun "InfixNode" 3; PSym "Times"; PFun "List" 3; PFun "ErrorNode" 3; PSym "ExpectedOperand"; PStr []; PFun "Association" 1; PFun "Rule" 2; PSym "Source"; PFun "List" 2; PFun "List" 2; PInt 1; PInt 3; PFun "List" 2; PInt 1; PInt 3; PFun "LeafNode" 3; PSym "Star"; PStr [42]; PFun "Association" 1; PFun "Rule" 2; PSym "Source"; PFun "List" 2; PFun "List" 2; PInt 1; PInt 3; PFun "List" 2; PInt 1; PInt 4; PFun "LeafNode" 3; PSym "Symbol"; PStr [98]; PFun "Association" 1; PFun "Rule" 2; PSym "Source"; PFun "List" 2; PFun "List" 2; PInt 1; PInt 4; PFun "List" 2; PInt 1; PInt 5; PFun "Association" 1; PFun "Rule" 2; PSym "Source"; PFun "List" 2; PFun "List" 2; PInt 1; PInt 3; PFun "List" 2; PInt 1; PInt 5; PFun "Association" 1; PFun "Rule" 2; PSym "Source"; PFun "List" 2; PFun "List" 2; PInt 1; PInt 1; PFun "List" 2; PInt 1; PInt 5].
Proof. vm_compute. reflexivity. Qed.

(** Concrete.mt Concrete-20200803-R2A7L5 *)
Example wl_067 : cstp d1 [60;124;9;63] =
  Some [PFun "List" 1; PFun "GroupMissingCloserNode" 3; PSym "Association"; PFun "List" 5; PFun "LeafNode" 3; PSym "LessBar"; PStr [60;124]; PFun "Association" 1; PFun "Rule" 2; PSym "Source"; PFun "List" 2; PFun "List" 2; PInt 1; PInt 1; PFun "List" 2; PInt 1; PInt 3; PFun "LeafNode" 3; PSym "Whitespace"; PStr [9]; PFun "Association" 1; PFun "Rule" 2; PSym "Source"; PFun "List" 2; PFun "List" 2; PInt 1; PInt 3; PFun "List" 2; PInt 1; PInt 4; PFun "ErrorNode" 3; PSym "ExpectedOperand"; PStr []; PFun "Association" 1; PFun "Rule" 2; PSym "Source"; PFun "List" 2; PFun "List" 2; PInt 1; PInt 4; PFun "List" 2; PInt 1; PInt 4; PFun "LeafNode" 3; PSym "Question"; PStr [63]; PFun "Association" 1; PFun "Rule" 2; PSym "Source"; PFun "List" 2; PFun "List" 2; PInt 1; PInt 4; PFun "List" 2; PInt 1; PInt 5; PFun "ErrorNode" 3; PSym "ExpectedOperand"; PStr []; PFun "Association" 1; PFun "Rule" 2; PSym "Source"; PFun "List" 2; PFun "List" 2; PInt 1; PInt 5; PFun "List" 2; PInt 1; PInt 5; PFun "Association" 1; PFun "Rule" 2; PSym "Source"; PFun "List" 2; PFun "List" 2; PInt 1; PInt 1; PFun "List" 2; PInt 1; PInt 5].
Proof. vm_compute. reflexivity. Qed.

(** Concrete.mt Concrete-20200803-D9D1E4 *)
Example wl_068 : cstp char_opts [49;43;13;10;50] =
  Some [PFun "List" 1; PFun "InfixNode" 3; PSym "Plus"; PFun "List" 4; PFun "LeafNode" 3; PSym "Integer"; PStr [49]; PFun "Association" 1; PFun "Rule" 2; PSym "Source"; PFun "List" 2; PInt 1; PInt 1; PFun "LeafNode" 3; PSym "Plus"; PStr [43]; PFun "Association" 1; PFun "Rule" 2; PSym "Source"; PFun "List" 2; PInt 2; PInt 2; PFun "LeafNode" 3; PSym "Newline"; PStr [13;10]; PFun "Association" 1; PFun "Rule" 2; PSym "Source"; PFun "List" 2; PInt 3; PInt 4; PFun "LeafNode" 3; PSym "Integer"; PStr [50]; PFun "Association" 1; PFun "Rule" 2; PSym "Source"; PFun "List" 2; PInt 5; PInt 5; PFun "Association" 1; PFun "Rule" 2; PSym "Source"; PFun "List" 2; PInt 1; PInt 5].
Proof. vm_compute. reflexivity. Qed.

(** Concrete.mt Concrete-20200803-T9U9J8 *)
Example wl_069 : cstp d1 [92;40;32;92;40;97;92;41;32;98;32;92;41] =
  Some [PFun "List" 1; PFun "LeafNode" 3; PSym "LinearSyntaxBlob"; PStr [92;40;32;92;40;97;92;41;32;98;32;92;41]; PFun "Association" 1; PFun "Rule" 2; PSym "Source"; PFun "List" 2; PFun "List" 2; PInt 1; PInt 1; PFun "List" 2; PInt 1; PInt 14].
Proof. vm_compute. reflexivity. Qed.

(** Concrete.mt Concrete-20220604-E6J3A1 *)
Example wl_070 : cstp d1 [102;91;97;59;98;59;93] =
  Some [PFun "List" 1; PFun "CallNode" 3; PFun "List" 1; PFun "LeafNode" 3; PSym "Symbol"; PStr [102]; PFun "Association" 1; PFun "Rule" 2; PSym "Source"; PFun "List" 2; PFun "List" 2; PInt 1; PInt 1; PFun "List" 2; PInt 1; PInt 2; PFun "GroupNode" 3; PSym "GroupSquare"; PFun "List" 3; PFun "LeafNode" 3; PSym "OpenSquare"; PStr [91]; PFun "Association" 1; PFun "Rule" 2; PSym "Source"; PFun "List" 2; PFun "List" 2; PInt 1; PInt 2; PFun "List" 2; PInt 1; PInt 3; PFun "InfixNode" 3; PSym "CompoundExpression"; PFun "List" 5; PFun "LeafNode" 3; PSym "Symbol"; PStr [97]; PFun "Association" 1; PFun "Rule" 2; PSym "Source"; PFun "List" 2; PFun "List" 2; PInt 1; PInt 3; PFun "List" 2; PInt 1; PInt 4; PFun "LeafNode" 3; PSym "Semi"; PStr [59]; PFun "Association" 1; PFun "Rule" 2; PSym "Source"; PFun "List" 2; PFun "List" 2; PInt 1; PInt 4; PFun "List" 2; PInt 1; PInt 5; PFun "LeafNode" 3; PSym "Symbol"; PStr [98]; PFun "Association" 1; PFun "Rule" 2; PSym "Source"; PFun "List" 2; PFun "List" 2; PInt 1; PInt 5; PFun "List" 2; PInt 1; PInt 6; PFun "LeafNode" 3; PSym "Semi"; PStr [59]; PFun "Association" 1; PFun "Rule" 2; PSym "Source"; PFun "List" 2; PFun "List" 2; PInt 1; PInt 6; PFun "List" 2; PInt 1; PInt 7; PFun "LeafNode" 3; PSym "ImplicitNull"; PStr []; PFun "Association" 1; PFun "Rule" 2; PSym "Source"; PFun "List" 2; PFun "List" 2; PInt 1; PInt 7; PFun "List" 2; PInt 1; PInt 7; PFun "Association" 1; PFun "Rule" 2; PSym "Source"; PFun "List" 2; PFun "List" 2; PInt 1; PInt 3; PFun "List" 2; PInt 1; PInt 7; PFun "LeafNode" 3; PSym "CloseSquare"; PStr [93]; PFun "Association" 1; PFun "Rule" 2; PSym "Source"; PFun "List" 2; PFun "List" 2; PInt 1; PInt 7; PFun "List" 2; PInt 1; PInt 8; PFun "Association" 1; PFun "Rule" 2; PSym "Source"; PFun "List" 2; PFun "List" 2; PInt 1; PInt 2; PFun "List" 2; PInt 1; PInt 8; PFun "Association" 1; PFun "Rule" 2; PSym "Source"; PFun "List" 2; PFun "List" 2; PInt 1; PInt 1; PFun "List" 2; PInt 1; PInt 8].
Proof. vm_compute. reflexivity. Qed.

(** Concrete.mt Concrete-20220611-P4E3J6 *)
Example wl_071 : cstp d1 [97;59;32;59;51;59] =
  Some [PFun "List" 1; PFun "InfixNode" 3; PSym "CompoundExpression"; PFun "List" 8; PFun "LeafNode" 3; PSym "Symbol"; PStr [97]; PFun "Association" 1; PFun "Rule" 2; PSym "Source"; PFun "List" 2; PFun "List" 2; PInt 1; PInt 1; PFun "List" 2; PInt 1; PInt 2; PFun "LeafNode" 3; PSym "Semi"; PStr [59]; PFun "Association" 1; PFun "Rule" 2; PSym "Source"; PFun "List" 2; PFun "List" 2; PInt 1; PInt 2; PFun "List" 2; PInt 1; PInt 3; PFun "LeafNode" 3; PSym "Whitespace"; PStr [32]; PFun "Association" 1; PFun "Rule" 2; PSym "Source"; PFun "List" 2; PFun "List" 2; PInt 1; PInt 3; PFun "List" 2; PInt 1; PInt 4; PFun "LeafNode" 3; PSym "ImplicitNull"; PStr []; PFun "Association" 1; PFun "Rule" 2; PSym "Source"; PFun "List" 2; PFun "List" 2; PInt 1; PInt 4; PFun "List" 2; PInt 1; PInt 4; PFun "LeafNode" 3; PSym "Semi"; PStr [59]; PFun "Association" 1; PFun "Rule" 2; PSym "Source"; PFun "List" 2; PFun "List" 2; PInt 1; PInt 4; PFun "List" 2; PInt 1; PInt 5; PFun "LeafNode" 3; PSym "Integer"; PStr [51]; PFun "Association" 1; PFun "Rule" 2; PSym "Source"; PFun "List" 2; PFun "List" 2; PInt 1; PInt 5; PFun "List" 2; PInt 1; PInt 6; PFun "LeafNode" 3; PSym "Semi"; PStr [59]; PFun "Association" 1; PFun "Rule" 2; PSym "Source"; PFun "List" 2; PFun "List" 2; PInt 1; PInt 6; PFun "List" 2; PInt 1; PInt 7; PFun "LeafNode" 3; PSym "ImplicitNull"; PStr []; PFun "Association" 1; PFun "Rule" 2; PSym "Source"; PFun "List" 2; PFun "List" 2; PInt 1; PInt 7; PFun "List" 2; PInt 1; PInt 7; PFun "Association" 1; PFun "Rule" 2; PSym "Source"; PFun "List" 2; PFun "List" 2; PInt 1; PInt 1; PFun "List" 2; PInt 1; PInt 7].
Proof. vm_compute. reflexivity. Qed.

(** Concrete.mt Concrete-20220614-R7R4U0 *)
Example wl_072 : cstp d1 [97;42;98;10;99] =
  Some [PFun "List" 3; PFun "InfixNode" 3; PSym "Times"; PFun "List" 3; PFun "LeafNode" 3; PSym "Symbol"; PStr [97]; PFun "Association" 1; PFun "Rule" 2; PSym "Source"; PFun "List" 2; PFun "List" 2; PInt 1; PInt 1; PFun "List" 2; PInt 1; PInt 2; PFun "LeafNode" 3; PSym "Star"; PStr [42]; PFun "Association" 1; PFun "Rule" 2; PSym "Source"; PFun "List" 2; PFun "List" 2; PInt 1; PInt 2; PFun "List" 2; PInt 1; PInt 3; PFun "LeafNode" 3; PSym "Symbol"; PStr [98]; PFun "Association" 1; PFun "Rule" 2; PSym "Source"; PFun "List" 2; PFun "List" 2; PInt 1; PInt 3; PFun "List" 2; PInt 1; PInt 4; PFun "Association" 1; PFun "Rule" 2; PSym "Source"; PFun "List" 2; PFun "List" 2; PInt 1; PInt 1; PFun "List" 2; PInt 1; PInt 4; PFun "LeafNode" 3; PSym "Newline"; PStr [10]; PFun "Association" 1; PFun "Rule" 2; PSym "Source"; PFun "List" 2; PFun "List" 2; PInt 1; PInt 4; PFun "List" 2; PInt 2; PInt 1; PFun "LeafNode" 3; PSym "Symbol"; PStr [99]; PFun "Association" 1; PFun "Rule" 2; PSym "Source"; PFun "List" 2; PFun "List" 2; PInt 2; PInt 1; PFun "List" 2; PInt 2; PInt 2].
Proof. vm_compute. reflexivity. Qed.

(** Concrete.mt Concrete-20220614-Q5X8F8 *)
Example wl_073 : cstp d1 [49;10;45;50] =
  Some [PFun "List" 3; PFun "LeafNode" 3; PSym "Integer"; PStr [49]; PFun "Association" 1; PFun "Rule" 2; PSym "Source"; PFun "List" 2; PFun "List" 2; PInt 1; PInt 1; PFun "List" 2; PInt 1; PInt 2; PFun "LeafNode" 3; PSym "Newline"; PStr [10]; PFun "Association" 1; PFun "Rule" 2; PSym "Source"; PFun "List" 2; PFun "List" 2; PInt 1; PInt 2; PFun "List" 2; PInt 2; PInt 1; PFun "PrefixNode" 3; PSym "Minus"; PFun "List" 2; PFun "LeafNode" 3; PSym "Minus"; PStr [45]; PFun "Association" 1; PFun "Rule" 2; PSym "Source"; PFun "List" 2; PFun "List" 2; PInt 2; PInt 1; PFun "List" 2; PInt 2; PInt 2; PFun "LeafNode" 3; PSym "Integer"; PStr [50]; PFun "Association" 1; PFun "Rule" 2; PSym "Source"; PFun "List" 2; PFun "List" 2; PInt 2; PInt 2; PFun "List" 2; PInt 2; PInt 3; PFun "Association" 1; PFun "Rule" 2; PSym "Source"; PFun "List" 2; PFun "List" 2; PInt 2; PInt 1; PFun "List" 2; PInt 2; PInt 3].
Proof. vm_compute. reflexivity. Qed.

(** Concrete.mt Concrete-20221023-H0R0U2 *)
Example wl_074 : cstp d1 [40;35;97;41] =
  Some [PFun "List" 1; PFun "GroupNode" 3; PSym "GroupParen"; PFun "List" 3; PFun "LeafNode" 3; PSym "OpenParen"; PStr [40]; PFun "Association" 1; PFun "Rule" 2; PSym "Source"; PFun "List" 2; PFun "List" 2; PInt 1; PInt 1; PFun "List" 2; PInt 1; PInt 2; PFun "CompoundNode" 3; PSym "Slot"; PFun "List" 2; PFun "LeafNode" 3; PSym "Hash"; PStr [35]; PFun "Association" 1; PFun "Rule" 2; PSym "Source"; PFun "List" 2; PFun "List" 2; PInt 1; PInt 2; PFun "List" 2; PInt 1; PInt 3; PFun "LeafNode" 3; PSym "String"; PStr [97]; PFun "Association" 1; PFun "Rule" 2; PSym "Source"; PFun "List" 2; PFun "List" 2; PInt 1; PInt 3; PFun "List" 2; PInt 1; PInt 4; PFun "Association" 1; PFun "Rule" 2; PSym "Source"; PFun "List" 2; PFun "List" 2; PInt 1; PInt 2; PFun "List" 2; PInt 1; PInt 4; PFun "LeafNode" 3; PSym "CloseParen"; PStr [41]; PFun "Association" 1; PFun "Rule" 2; PSym "Source"; PFun "List" 2; PFun "List" 2; PInt 1; PInt 4; PFun "List" 2; PInt 1; PInt 5; PFun "Association" 1; PFun "Rule" 2; PSym "Source"; PFun "List" 2; PFun "List" 2; PInt 1; PInt 1; PFun "List" 2; PInt 1; PInt 5].
Proof. vm_compute. reflexivity. Qed.

(** Error.mt Error-20211104-P0L8Y0 *)
Example wl_075 : cstp d1 [92;124;49;49;48;48;48;48] =
  Some [PFun "List" 1; PFun "ErrorNode" 3; PSym "UnhandledCharacter"; PStr [92;124;49;49;48;48;48;48]; PFun "Association" 1; PFun "Rule" 2; PSym "Source"; PFun "List" 2; PFun "List" 2; PInt 1; PInt 1; PFun "List" 2; PInt 1; PInt 9].
Proof. vm_compute. reflexivity. Qed.

(** Error.mt Error-20211104-Q2O1J4 *)
Example wl_076 : cstp d1 [92;124;70;70;70;70;70;70] =
  Some [PFun "List" 1; PFun "ErrorNode" 3; PSym "UnhandledCharacter"; PStr [92;124;70;70;70;70;70;70]; PFun "Association" 1; PFun "Rule" 2; PSym "Source"; PFun "List" 2; PFun "List" 2; PInt 1; PInt 1; PFun "List" 2; PInt 1; PInt 9].
Proof. vm_compute. reflexivity. Qed.

(** Error.mt Error-20220711-I6O1H4 *)
Example wl_077 : cstp d1 [82;101;103;117;108;97;114;69;120;112;114;101;115;115;105;111;110;91;34;92;92;91;97;45;122;65;45;90;48;45;57;93;43;92;92;93;34;93] =
  Some [PFun "List" 1; PFun "CallNode" 3; PFun "List" 1; PFun "LeafNode" 3; PSym "Symbol"; PStr [82;101;103;117;108;97;114;69;120;112;114;101;115;115;105;111;110]; PFun "Association" 1; PFun "Rule" 2; PSym "Source"; PFun "List" 2; PFun "List" 2; PInt 1; PInt 1; PFun "List" 2; PInt 1; PInt 18; PFun "GroupNode" 3; PSym "GroupSquare"; PFun "List" 3; PFun "LeafNode" 3; PSym "OpenSquare"; PStr [91]; PFun "Association" 1; PFun "Rule" 2; PSym "Source"; PFun "List" 2; PFun "List" 2; PInt 1; PInt 18; PFun "List" 2; PInt 1; PInt 19; PFun "LeafNode" 3; PSym "String"; PStr [34;92;92;91;97;45;122;65;45;90;48;45;57;93;43;92;92;93;34]; PFun "Association" 1; PFun "Rule" 2; PSym "Source"; PFun "List" 2; PFun "List" 2; PInt 1; PInt 19; PFun "List" 2; PInt 1; PInt 38; PFun "LeafNode" 3; PSym "CloseSquare"; PStr [93]; PFun "Association" 1; PFun "Rule" 2; PSym "Source"; PFun "List" 2; PFun "List" 2; PInt 1; PInt 38; PFun "List" 2; PInt 1; PInt 39; PFun "Association" 1; PFun "Rule" 2; PSym "Source"; PFun "List" 2; PFun "List" 2; PInt 1; PInt 18; PFun "List" 2; PInt 1; PInt 39; PFun "Association" 1; PFun "Rule" 2; PSym "Source"; PFun "List" 2; PFun "List" 2; PInt 1; PInt 1; PFun "List" 2; PInt 1; PInt 39].
Proof. vm_compute. reflexivity. Qed.

(** Errors.mt Errors-20190203-G0U2N7 *)
Example wl_078 : cstp d1 [97;32;45;32;92;116;98] =
  Some [PFun "List" 1; PFun "InfixNode" 3; PSym "Times"; PFun "List" 3; PFun "InfixNode" 3; PSym "Plus"; PFun "List" 5; PFun "LeafNode" 3; PSym "Symbol"; PStr [97]; PFun "Association" 1; PFun "Rule" 2; PSym "Source"; PFun "List" 2; PFun "List" 2; PInt 1; PInt 1; PFun "List" 2; PInt 1; PInt 2; PFun "LeafNode" 3; PSym "Whitespace"; PStr [32]; PFun "Association" 1; PFun "Rule" 2; PSym "Source"; PFun "List" 2; PFun "List" 2; PInt 1; PInt 2; PFun "List" 2; PInt 1; PInt 3; PFun "LeafNode" 3; PSym "Minus"; PStr [45]; PFun "Association" 1; PFun "Rule" 2; PSym "Source"; PFun "List" 2; PFun "List" 2; PInt 1; PInt 3; PFun "List" 2; PInt 1; PInt 4; PFun "LeafNode" 3; PSym "Whitespace"; PStr [32]; PFun "Association" 1; PFun "Rule" 2; PSym "Source"; PFun "List" 2; PFun "List" 2; PInt 1; PInt 4; PFun "List" 2; PInt 1; PInt 5; PFun "ErrorNode" 3; PSym "UnhandledCharacter"; PStr [92;116]; PFun "Association" 1; PFun "Rule" 2; PSym "Source"; PFun "List" 2; PFun "List" 2; PInt 1; PInt 5; PFun "List" 2; PInt 1; PInt 7; PFun "Association" 1; PFun "Rule" 2; PSym "Source"; PFun "List" 2; PFun "List" 2; PInt 1; PInt 1; PFun "List" 2; PInt 1; PInt 7; PFun "LeafNode" 3; PSym "ImplicitTimes"; PStr []; PFun "Association" 1; PFun "Rule" 2; PSym "Source"; PFun "List" 2; PFun "List" 2; PInt 1; PInt 7; PFun "List" 2; PInt 1; PInt 7; PFun "LeafNode" 3; PSym "Symbol"; PStr [98]; PFun "Association" 1; PFun "Rule" 2; PSym "Source"; PFun "List" 2; PFun "List" 2; PInt 1; PInt 7; PFun "List" 2; PInt 1; PInt 8; PFun "Association" 1; PFun "Rule" 2; PSym "Source"; PFun "List" 2; PFun "List" 2; PInt 1; PInt 1; PFun "List" 2; PInt 1; PInt 8].
Proof. vm_compute. reflexivity. Qed.

(** Errors.mt Errors-20190203-M3A0S4 *)
Example wl_079 : astp d1 [92] =
  Some [PFun "List" 1; PFun "ErrorNode" 3; PSym "UnhandledCharacter"; PStr [92]; PFun "Association" 1; PFun "Rule" 2; PSym "Source"; PFun "List" 2; PFun "List" 2; PInt 1; PInt 1; PFun "List" 2; PInt 1; PInt 2].
Proof. vm_compute. reflexivity. Qed.

(** Errors.mt Errors-20200516-T4E0K2 *)
Example wl_080 : cstp d1 [123;98;43;41;99;125] =
  Some [PFun "List" 1; PFun "GroupNode" 3; PSym "List"; PFun "List" 5; PFun "LeafNode" 3; PSym "OpenCurly"; PStr [123]; PFun "Association" 1; PFun "Rule" 2; PSym "Source"; PFun "List" 2; PFun "List" 2; PInt 1; PInt 1; PFun "List" 2; PInt 1; PInt 2; PFun "InfixNode" 3; PSym "Plus"; PFun "List" 3; PFun "LeafNode" 3; PSym "Symbol"; PStr [98]; PFun "Association" 1; PFun "Rule" 2; PSym "Source"; PFun "List" 2; PFun "List" 2; PInt 1; PInt 2; PFun "List" 2; PInt 1; PInt 3; PFun "LeafNode" 3; PSym "Plus"; PStr [43]; PFun "Association" 1; PFun "Rule" 2; PSym "Source"; PFun "List" 2; PFun "List" 2; PInt 1; PInt 3; PFun "List" 2; PInt 1; PInt 4; PFun "ErrorNode" 3; PSym "ExpectedOperand"; PStr []; PFun "Association" 1; PFun "Rule" 2; PSym "Source"; PFun "List" 2; PFun "List" 2; PInt 1; PInt 4; PFun "List" 2; PInt 1; PInt 4; PFun "Association" 1; PFun "Rule" 2; PSym "Source"; PFun "List" 2; PFun "List" 2; PInt 1; PInt 2; PFun "List" 2; PInt 1; PInt 4; PFun "ErrorNode" 3; PSym "UnexpectedCloser"; PStr [41]; PFun "Association" 1; PFun "Rule" 2; PSym "Source"; PFun "List" 2; PFun "List" 2; PInt 1; PInt 4; PFun "List" 2; PInt 1; PInt 5; PFun "LeafNode" 3; PSym "Symbol"; PStr [99]; PFun "Association" 1; PFun "Rule" 2; PSym "Source"; PFun "List" 2; PFun "List" 2; PInt 1; PInt 5; PFun "List" 2; PInt 1; PInt 6; PFun "LeafNode" 3; PSym "CloseCurly"; PStr [125]; PFun "Association" 1; PFun "Rule" 2; PSym "Source"; PFun "List" 2; PFun "List" 2; PInt 1; PInt 6; PFun "List" 2; PInt 1; PInt 7; PFun "Association" 1; PFun "Rule" 2; PSym "Source"; PFun "List" 2; PFun "List" 2; PInt 1; PInt 1; PFun "List" 2; PInt 1; PInt 7].
Proof. vm_compute. reflexivity. Qed.

(** Errors.mt Errors-20190521-C1B3O0 *)
Example wl_081 : astp d1 [123;32;43;32;125] =
  Some [PFun "List" 1; PFun "CallNode" 3; PFun "LeafNode" 3; PSym "Symbol"; PStr [76;105;115;116]; PFun "Association" 0; PFun "List" 1; PFun "CallNode" 3; PFun "LeafNode" 3; PSym "Symbol"; PStr [80;108;117;115]; PFun "Association" 0; PFun "List" 1; PFun "ErrorNode" 3; PSym "ExpectedOperand"; PStr []; PFun "Association" 1; PFun "Rule" 2; PSym "Source"; PFun "List" 2; PFun "List" 2; PInt 1; PInt 5; PFun "List" 2; PInt 1; PInt 5; PFun "Association" 1; PFun "Rule" 2; PSym "Source"; PFun "List" 2; PFun "List" 2; PInt 1; PInt 3; PFun "List" 2; PInt 1; PInt 5; PFun "Association" 1; PFun "Rule" 2; PSym "Source"; PFun "List" 2; PFun "List" 2; PInt 1; PInt 1; PFun "List" 2; PInt 1; PInt 6].
Proof. vm_compute. reflexivity. Qed.

(** Errors.mt Errors-20190521-O5D4A9 *)
Example wl_082 : astp d1 [38] =
  Some [PFun "List" 1; PFun "CallNode" 3; PFun "LeafNode" 3; PSym "Symbol"; PStr [70;117;110;99;116;105;111;110]; PFun "Association" 0; PFun "List" 1; PFun "ErrorNode" 3; PSym "ExpectedOperand"; PStr []; PFun "Association" 1; PFun "Rule" 2; PSym "Source"; PFun "List" 2; PFun "List" 2; PInt 1; PInt 1; PFun "List" 2; PInt 1; PInt 1; PFun "Association" 1; PFun "Rule" 2; PSym "Source"; PFun "List" 2; PFun "List" 2; PInt 1; PInt 1; PFun "List" 2; PInt 1; PInt 2].
Proof. vm_compute. reflexivity. Qed.

(** Errors.mt Errors-20190521-P7R3O7 *)
Example wl_083 : cstp d1 [92] =
  Some [PFun "List" 1; PFun "ErrorNode" 3; PSym "UnhandledCharacter"; PStr [92]; PFun "Association" 1; PFun "Rule" 2; PSym "Source"; PFun "List" 2; PFun "List" 2; PInt 1; PInt 1; PFun "List" 2; PInt 1; PInt 2].
Proof. vm_compute. reflexivity. Qed.

(** Errors.mt Errors-20200621-A3S2X7 *)
Example wl_084 : cstp d1 [65;96;59] =
  Some [PFun "List" 2; PFun "ErrorNode" 3; PSym "ExpectedLetterlike"; PStr [65;96]; PFun "Association" 1; PFun "Rule" 2; PSym "Source"; PFun "List" 2; PFun "List" 2; PInt 1; PInt 1; PFun "List" 2; PInt 1; PInt 3; PFun "InfixNode" 3; PSym "CompoundExpression"; PFun "List" 3; PFun "ErrorNode" 3; PSym "ExpectedOperand"; PStr []; PFun "Association" 1; PFun "Rule" 2; PSym "Source"; PFun "List" 2; PFun "List" 2; PInt 1; PInt 3; PFun "List" 2; PInt 1; PInt 3; PFun "LeafNode" 3; PSym "Semi"; PStr [59]; PFun "Association" 1; PFun "Rule" 2; PSym "Source"; PFun "List" 2; PFun "List" 2; PInt 1; PInt 3; PFun "List" 2; PInt 1; PInt 4; PFun "LeafNode" 3; PSym "ImplicitNull"; PStr []; PFun "Association" 1; PFun "Rule" 2; PSym "Source"; PFun "List" 2; PFun "List" 2; PInt 1; PInt 4; PFun "List" 2; PInt 1; PInt 4; PFun "Association" 1; PFun "Rule" 2; PSym "Source"; PFun "List" 2; PFun "List" 2; PInt 1; PInt 3; PFun "List" 2; PInt 1; PInt 4].
Proof. vm_compute. reflexivity. Qed.

(** Errors.mt Errors-20200623-O0B7Z2 *)
Example wl_085 : cstp d1 [34;49;50;51] =
  Some [PFun "List" 1; PFun "ErrorNode" 3; PSym "UnterminatedString"; PStr [34;49;50;51]; PFun "Association" 1; PFun "Rule" 2; PSym "Source"; PFun "List" 2; PFun "List" 2; PInt 1; PInt 1; PFun "List" 2; PInt 1; PInt 5].
Proof. vm_compute. reflexivity. Qed.

(** Errors.mt Errors-20200627-I9S5C6 *)
Example wl_086 : cstp d1 [102;91;97;64;44;50;93] =
  Some [PFun "List" 1; PFun "CallNode" 3; PFun "List" 1; PFun "LeafNode" 3; PSym "Symbol"; PStr [102]; PFun "Association" 1; PFun "Rule" 2; PSym "Source"; PFun "List" 2; PFun "List" 2; PInt 1; PInt 1; PFun "List" 2; PInt 1; PInt 2; PFun "GroupNode" 3; PSym "GroupSquare"; PFun "List" 3; PFun "LeafNode" 3; PSym "OpenSquare"; PStr [91]; PFun "Association" 1; PFun "Rule" 2; PSym "Source"; PFun "List" 2; PFun "List" 2; PInt 1; PInt 2; PFun "List" 2; PInt 1; PInt 3; PFun "InfixNode" 3; PSym "Comma"; PFun "List" 3; PFun "BinaryNode" 3; PSym "BinaryAt"; PFun "List" 3; PFun "LeafNode" 3; PSym "Symbol"; PStr [97]; PFun "Association" 1; PFun "Rule" 2; PSym "Source"; PFun "List" 2; PFun "List" 2; PInt 1; PInt 3; PFun "List" 2; PInt 1; PInt 4; PFun "LeafNode" 3; PSym "At"; PStr [64]; PFun "Association" 1; PFun "Rule" 2; PSym "Source"; PFun "List" 2; PFun "List" 2; PInt 1; PInt 4; PFun "List" 2; PInt 1; PInt 5; PFun "ErrorNode" 3; PSym "ExpectedOperand"; PStr []; PFun "Association" 1; PFun "Rule" 2; PSym "Source"; PFun "List" 2; PFun "List" 2; PInt 1; PInt 5; PFun "List" 2; PInt 1; PInt 5; PFun "Association" 1; PFun "Rule" 2; PSym "Source"; PFun "List" 2; PFun "List" 2; PInt 1; PInt 3; PFun "List" 2; PInt 1; PInt 5; PFun "LeafNode" 3; PSym "Comma"; PStr [44]; PFun "Association" 1; PFun "Rule" 2; PSym "Source"; PFun "List" 2; PFun "List" 2; PInt 1; PInt 5; PFun "List" 2; PInt 1; PInt 6; PFun "LeafNode" 3; PSym "Integer"; PStr [50]; PFun "Association" 1; PFun "Rule" 2; PSym "Source"; PFun "List" 2; PFun "List" 2; PInt 1; PInt 6; PFun "List" 2; PInt 1; PInt 7; PFun "Association" 1; PFun "Rule" 2; PSym "Source"; PFun "List" 2; PFun "List" 2; PInt 1; PInt 3; PFun "List" 2; PInt 1; PInt 7; PFun "LeafNode" 3; PSym "CloseSquare"; PStr [93]; PFun "Association" 1; PFun "Rule" 2; PSym "Source"; PFun "List" 2; PFun "List" 2; PInt 1; PInt 7; PFun "List" 2; PInt 1; PInt 8; PFun "Association" 1; PFun "Rule" 2; PSym "Source"; PFun "List" 2; PFun "List" 2; PInt 1; PInt 2; PFun "List" 2; PInt 1; PInt 8; PFun "Association" 1; PFun "Rule" 2; PSym "Source"; PFun "List" 2; PFun "List" 2; PInt 1; PInt 1; PFun "List" 2; PInt 1; PInt 8].
Proof. vm_compute. reflexivity. Qed.

(** Errors.mt Errors-20200628-R6O2J3 *)
Example wl_087 : cstp d1 [97;126;98;126] =
  Some [PFun "List" 1; PFun "TernaryNode" 3; PSym "TernaryTilde"; PFun "List" 5; PFun "LeafNode" 3; PSym "Symbol"; PStr [97]; PFun "Association" 1; PFun "Rule" 2; PSym "Source"; PFun "List" 2; PFun "List" 2; PInt 1; PInt 1; PFun "List" 2; PInt 1; PInt 2; PFun "LeafNode" 3; PSym "Tilde"; PStr [126]; PFun "Association" 1; PFun "Rule" 2; PSym "Source"; PFun "List" 2; PFun "List" 2; PInt 1; PInt 2; PFun "List" 2; PInt 1; PInt 3; PFun "LeafNode" 3; PSym "Symbol"; PStr [98]; PFun "Association" 1; PFun "Rule" 2; PSym "Source"; PFun "List" 2; PFun "List" 2; PInt 1; PInt 3; PFun "List" 2; PInt 1; PInt 4; PFun "LeafNode" 3; PSym "Tilde"; PStr [126]; PFun "Association" 1; PFun "Rule" 2; PSym "Source"; PFun "List" 2; PFun "List" 2; PInt 1; PInt 4; PFun "List" 2; PInt 1; PInt 5; PFun "ErrorNode" 3; PSym "ExpectedOperand"; PStr []; PFun "Association" 1; PFun "Rule" 2; PSym "Source"; PFun "List" 2; PFun "List" 2; PInt 1; PInt 5; PFun "List" 2; PInt 1; PInt 5; PFun "Association" 1; PFun "Rule" 2; PSym "Source"; PFun "List" 2; PFun "List" 2; PInt 1; PInt 1; PFun "List" 2; PInt 1; PInt 5].
Proof. vm_compute. reflexivity. Qed.

(** Errors.mt Errors-20200629-Y2S2R8 *)
Example wl_088 : astp d1 [45] =
  Some [PFun "List" 1; PFun "CallNode" 3; PFun "LeafNode" 3; PSym "Symbol"; PStr [84;105;109;101;115]; PFun "Association" 0; PFun "List" 2; PFun "LeafNode" 3; PSym "Integer"; PStr [45;49]; PFun "Association" 0; PFun "ErrorNode" 3; PSym "ExpectedOperand"; PStr []; PFun "Association" 1; PFun "Rule" 2; PSym "Source"; PFun "List" 2; PFun "List" 2; PInt 1; PInt 2; PFun "List" 2; PInt 1; PInt 2; PFun "Association" 1; PFun "Rule" 2; PSym "Source"; PFun "List" 2; PFun "List" 2; PInt 1; PInt 1; PFun "List" 2; PInt 1; PInt 2].
Proof. vm_compute. reflexivity. Qed.

(** LineContinuations.mt LineContinuations-20190606-U7J9I3 *)
Example wl_089 : cstp d1 [34;97;98;99;92;13;10;100;101;102;34] =
  Some [PFun "List" 1; PFun "LeafNode" 3; PSym "String"; PStr [34;97;98;99;92;13;10;100;101;102;34]; PFun "Association" 1; PFun "Rule" 2; PSym "Source"; PFun "List" 2; PFun "List" 2; PInt 1; PInt 1; PFun "List" 2; PInt 2; PInt 5].
Proof. vm_compute. reflexivity. Qed.

(** LineContinuations.mt LineContinuations-20220713-O3P5D6 *)
Example wl_090 : cstp d1 [49;92;10] =
  Some [PFun "List" 1; PFun "LeafNode" 3; PSym "Integer"; PStr [49]; PFun "Association" 1; PFun "Rule" 2; PSym "Source"; PFun "List" 2; PFun "List" 2; PInt 1; PInt 1; PFun "List" 2; PInt 1; PInt 2].
Proof. vm_compute. reflexivity. Qed.

(** Parse.mt Parse-20190227-B2B5G4 *)
Example wl_091 : astp d1 [] =
  Some [PFun "List" 0].
Proof. vm_compute. reflexivity. Qed.

(** Parse.mt Parse-20200112-B6C6J0 *)
Example wl_092 : astp d1 [50;46;80;105] =
  Some [PFun "List" 1; PFun "CallNode" 3; PFun "LeafNode" 3; PSym "Symbol"; PStr [84;105;109;101;115]; PFun "Association" 0; PFun "List" 2; PFun "LeafNode" 3; PSym "Real"; PStr [50;46]; PFun "Association" 1; PFun "Rule" 2; PSym "Source"; PFun "List" 2; PFun "List" 2; PInt 1; PInt 1; PFun "List" 2; PInt 1; PInt 3; PFun "LeafNode" 3; PSym "Symbol"; PStr [80;105]; PFun "Association" 1; PFun "Rule" 2; PSym "Source"; PFun "List" 2; PFun "List" 2; PInt 1; PInt 3; PFun "List" 2; PInt 1; PInt 5; PFun "Association" 1; PFun "Rule" 2; PSym "Source"; PFun "List" 2; PFun "List" 2; PInt 1; PInt 1; PFun "List" 2; PInt 1; PInt 5].
Proof. vm_compute. reflexivity. Qed.

(** Parse.mt Parse-20200112-G6X1N0 *)
Example wl_093 : astp d1 [49;48;94;94;50;46;80;105] =
  Some [PFun "List" 1; PFun "ErrorNode" 3; PSym "Number"; PStr [49;48;94;94;50;46;80;105]; PFun "Association" 1; PFun "Rule" 2; PSym "Source"; PFun "List" 2; PFun "List" 2; PInt 1; PInt 1; PFun "List" 2; PInt 1; PInt 9].
Proof. vm_compute. reflexivity. Qed.

(** Parse.mt Parse-20190821-N2R2A4 *)
Example wl_094 : astp d1 [49;50;51;96;96;46;120;120;120] =
  Some [PFun "List" 2; PFun "ErrorNode" 3; PSym "Number"; PStr [49;50;51;96;96;46]; PFun "Association" 1; PFun "Rule" 2; PSym "Source"; PFun "List" 2; PFun "List" 2; PInt 1; PInt 1; PFun "List" 2; PInt 1; PInt 7; PFun "LeafNode" 3; PSym "Symbol"; PStr [120;120;120]; PFun "Association" 1; PFun "Rule" 2; PSym "Source"; PFun "List" 2; PFun "List" 2; PInt 1; PInt 7; PFun "List" 2; PInt 1; PInt 10].
Proof. vm_compute. reflexivity. Qed.

(** Parse.mt Parse-20191116-N2A8P4 *)
Example wl_095 : astp d1 [49;96;46;43;50] =
  Some [PFun "List" 2; PFun "ErrorNode" 3; PSym "Number"; PStr [49;96;46;43]; PFun "Association" 1; PFun "Rule" 2; PSym "Source"; PFun "List" 2; PFun "List" 2; PInt 1; PInt 1; PFun "List" 2; PInt 1; PInt 5; PFun "LeafNode" 3; PSym "Integer"; PStr [50]; PFun "Association" 1; PFun "Rule" 2; PSym "Source"; PFun "List" 2; PFun "List" 2; PInt 1; PInt 5; PFun "List" 2; PInt 1; PInt 6].
Proof. vm_compute. reflexivity. Qed.

(** Parse.mt Parse-20200112-K5W6R9 *)
Example wl_096 : astp d1 [50;94;94;46] =
  Some [PFun "List" 1; PFun "ErrorNode" 3; PSym "Number"; PStr [50;94;94;46]; PFun "Association" 1; PFun "Rule" 2; PSym "Source"; PFun "List" 2; PFun "List" 2; PInt 1; PInt 1; PFun "List" 2; PInt 1; PInt 5].
Proof. vm_compute. reflexivity. Qed.

(** Parse.mt Parse-20190920-R5Q7N8 *)
Example wl_097 : astp d1 [102;91;44;49;93] =
  Some [PFun "List" 1; PFun "CallNode" 3; PFun "LeafNode" 3; PSym "Symbol"; PStr [102]; PFun "Association" 1; PFun "Rule" 2; PSym "Source"; PFun "List" 2; PFun "List" 2; PInt 1; PInt 1; PFun "List" 2; PInt 1; PInt 2; PFun "List" 2; PFun "LeafNode" 3; PSym "Symbol"; PStr [78;117;108;108]; PFun "Association" 1; PFun "Rule" 2; PSym "Source"; PFun "List" 2; PFun "List" 2; PInt 1; PInt 3; PFun "List" 2; PInt 1; PInt 3; PFun "LeafNode" 3; PSym "Integer"; PStr [49]; PFun "Association" 1; PFun "Rule" 2; PSym "Source"; PFun "List" 2; PFun "List" 2; PInt 1; PInt 4; PFun "List" 2; PInt 1; PInt 5; PFun "Association" 1; PFun "Rule" 2; PSym "Source"; PFun "List" 2; PFun "List" 2; PInt 1; PInt 1; PFun "List" 2; PInt 1; PInt 6].
Proof. vm_compute. reflexivity. Qed.

(** Parse.mt Parse-20190920-T8N2C7 *)
Example wl_098 : astp d1 [102;91;44;49;44;50;93] =
  Some [PFun "List" 1; PFun "CallNode" 3; PFun "LeafNode" 3; PSym "Symbol"; PStr [102]; PFun "Association" 1; PFun "Rule" 2; PSym "Source"; PFun "List" 2; PFun "List" 2; PInt 1; PInt 1; PFun "List" 2; PInt 1; PInt 2; PFun "List" 3; PFun "LeafNode" 3; PSym "Symbol"; PStr [78;117;108;108]; PFun "Association" 1; PFun "Rule" 2; PSym "Source"; PFun "List" 2; PFun "List" 2; PInt 1; PInt 3; PFun "List" 2; PInt 1; PInt 3; PFun "LeafNode" 3; PSym "Integer"; PStr [49]; PFun "Association" 1; PFun "Rule" 2; PSym "Source"; PFun "List" 2; PFun "List" 2; PInt 1; PInt 4; PFun "List" 2; PInt 1; PInt 5; PFun "LeafNode" 3; PSym "Integer"; PStr [50]; PFun "Association" 1; PFun "Rule" 2; PSym "Source"; PFun "List" 2; PFun "List" 2; PInt 1; PInt 6; PFun "List" 2; PInt 1; PInt 7; PFun "Association" 1; PFun "Rule" 2; PSym "Source"; PFun "List" 2; PFun "List" 2; PInt 1; PInt 1; PFun "List" 2; PInt 1; PInt 8].
Proof. vm_compute. reflexivity. Qed.

(** Parse.mt Parse-20191213-P6S5K2 *)
Example wl_099 : astp d1 [97;58;58] =
  Some [PFun "List" 1; PFun "CallNode" 3; PFun "LeafNode" 3; PSym "Symbol"; PStr [77;101;115;115;97;103;101;78;97;109;101]; PFun "Association" 0; PFun "List" 2; PFun "LeafNode" 3; PSym "Symbol"; PStr [97]; PFun "Association" 1; PFun "Rule" 2; PSym "Source"; PFun "List" 2; PFun "List" 2; PInt 1; PInt 1; PFun "List" 2; PInt 1; PInt 2; PFun "ErrorNode" 3; PSym "ExpectedTag"; PStr []; PFun "Association" 1; PFun "Rule" 2; PSym "Source"; PFun "List" 2; PFun "List" 2; PInt 1; PInt 4; PFun "List" 2; PInt 1; PInt 4; PFun "Association" 1; PFun "Rule" 2; PSym "Source"; PFun "List" 2; PFun "List" 2; PInt 1; PInt 1; PFun "List" 2; PInt 1; PInt 4].
Proof. vm_compute. reflexivity. Qed.

(** Parse.mt Parse-20191224-I3Q3E6 *)
Example wl_100 : astp d1 [97;47] =
  Some [PFun "List" 1; PFun "CallNode" 3; PFun "LeafNode" 3; PSym "Symbol"; PStr [84;105;109;101;115]; PFun "Association" 0; PFun "List" 2; PFun "LeafNode" 3; PSym "Symbol"; PStr [97]; PFun "Association" 1; PFun "Rule" 2; PSym "Source"; PFun "List" 2; PFun "List" 2; PInt 1; PInt 1; PFun "List" 2; PInt 1; PInt 2; PFun "CallNode" 3; PFun "LeafNode" 3; PSym "Symbol"; PStr [80;111;119;101;114]; PFun "Association" 0; PFun "List" 2; PFun "ErrorNode" 3; PSym "ExpectedOperand"; PStr []; PFun "Association" 1; PFun "Rule" 2; PSym "Source"; PFun "List" 2; PFun "List" 2; PInt 1; PInt 3; PFun "List" 2; PInt 1; PInt 3; PFun "LeafNode" 3; PSym "Integer"; PStr [45;49]; PFun "Association" 0; PFun "Association" 1; PFun "Rule" 2; PSym "Source"; PFun "List" 2; PFun "List" 2; PInt 1; PInt 1; PFun "List" 2; PInt 1; PInt 3; PFun "Association" 1; PFun "Rule" 2; PSym "Source"; PFun "List" 2; PFun "List" 2; PInt 1; PInt 1; PFun "List" 2; PInt 1; PInt 3].
Proof. vm_compute. reflexivity. Qed.

(** Parse.mt Parse-20191224-Q4A6D4 *)
Example wl_101 : astp d1 [97;45] =
  Some [PFun "List" 1; PFun "CallNode" 3; PFun "LeafNode" 3; PSym "Symbol"; PStr [80;108;117;115]; PFun "Association" 0; PFun "List" 2; PFun "LeafNode" 3; PSym "Symbol"; PStr [97]; PFun "Association" 1; PFun "Rule" 2; PSym "Source"; PFun "List" 2; PFun "List" 2; PInt 1; PInt 1; PFun "List" 2; PInt 1; PInt 2; PFun "CallNode" 3; PFun "LeafNode" 3; PSym "Symbol"; PStr [84;105;109;101;115]; PFun "Association" 0; PFun "List" 2; PFun "LeafNode" 3; PSym "Integer"; PStr [45;49]; PFun "Association" 0; PFun "ErrorNode" 3; PSym "ExpectedOperand"; PStr []; PFun "Association" 1; PFun "Rule" 2; PSym "Source"; PFun "List" 2; PFun "List" 2; PInt 1; PInt 3; PFun "List" 2; PInt 1; PInt 3; PFun "Association" 1; PFun "Rule" 2; PSym "Source"; PFun "List" 2; PFun "List" 2; PInt 1; PInt 2; PFun "List" 2; PInt 1; PInt 3; PFun "Association" 1; PFun "Rule" 2; PSym "Source"; PFun "List" 2; PFun "List" 2; PInt 1; PInt 1; PFun "List" 2; PInt 1; PInt 3].
Proof. vm_compute. reflexivity. Qed.

(** Parse.mt Parse-20191224-W2M0H4 *)
Example wl_102 : astp d1 [40;41] =
  Some [PFun "List" 1; PFun "AbstractSyntaxErrorNode" 3; PSym "OpenParen"; PFun "List" 0; PFun "Association" 1; PFun "Rule" 2; PSym "Source"; PFun "List" 2; PFun "List" 2; PInt 1; PInt 1; PFun "List" 2; PInt 1; PInt 3].
Proof. vm_compute. reflexivity. Qed.

(** Parse.mt Parse-20200308-S7F8E6 *)
Example wl_103 : astp d1 [97;95] =
  Some [PFun "List" 1; PFun "CallNode" 3; PFun "LeafNode" 3; PSym "Symbol"; PStr [80;97;116;116;101;114;110]; PFun "Association" 0; PFun "List" 2; PFun "LeafNode" 3; PSym "Symbol"; PStr [97]; PFun "Association" 1; PFun "Rule" 2; PSym "Source"; PFun "List" 2; PFun "List" 2; PInt 1; PInt 1; PFun "List" 2; PInt 1; PInt 2; PFun "CallNode" 3; PFun "LeafNode" 3; PSym "Symbol"; PStr [66;108;97;110;107]; PFun "Association" 0; PFun "List" 0; PFun "Association" 1; PFun "Rule" 2; PSym "Source"; PFun "List" 2; PFun "List" 2; PInt 1; PInt 2; PFun "List" 2; PInt 1; PInt 3; PFun "Association" 1; PFun "Rule" 2; PSym "Source"; PFun "List" 2; PFun "List" 2; PInt 1; PInt 1; PFun "List" 2; PInt 1; PInt 3].
Proof. vm_compute. reflexivity. Qed.

(** Parse.mt Parse-20200313-J0R5D7 *)
Example wl_104 : astp d1 [97;47;58;98;61;46;99;124;100;58;46;46] =
  Some [PFun "List" 1; PFun "CallNode" 3; PFun "LeafNode" 3; PSym "Symbol"; PStr [65;108;116;101;114;110;97;116;105;118;101;115]; PFun "Association" 0; PFun "List" 2; PFun "CallNode" 3; PFun "LeafNode" 3; PSym "Symbol"; PStr [84;105;109;101;115]; PFun "Association" 0; PFun "List" 2; PFun "CallNode" 3; PFun "LeafNode" 3; PSym "Symbol"; PStr [84;97;103;85;110;115;101;116]; PFun "Association" 0; PFun "List" 2; PFun "LeafNode" 3; PSym "Symbol"; PStr [97]; PFun "Association" 1; PFun "Rule" 2; PSym "Source"; PFun "List" 2; PFun "List" 2; PInt 1; PInt 1; PFun "List" 2; PInt 1; PInt 2; PFun "LeafNode" 3; PSym "Symbol"; PStr [98]; PFun "Association" 1; PFun "Rule" 2; PSym "Source"; PFun "List" 2; PFun "List" 2; PInt 1; PInt 4; PFun "List" 2; PInt 1; PInt 5; PFun "Association" 1; PFun "Rule" 2; PSym "Source"; PFun "List" 2; PFun "List" 2; PInt 1; PInt 1; PFun "List" 2; PInt 1; PInt 7; PFun "LeafNode" 3; PSym "Symbol"; PStr [99]; PFun "Association" 1; PFun "Rule" 2; PSym "Source"; PFun "List" 2; PFun "List" 2; PInt 1; PInt 7; PFun "List" 2; PInt 1; PInt 8; PFun "Association" 1; PFun "Rule" 2; PSym "Source"; PFun "List" 2; PFun "List" 2; PInt 1; PInt 1; PFun "List" 2; PInt 1; PInt 8; PFun "CallNode" 3; PFun "LeafNode" 3; PSym "Symbol"; PStr [80;97;116;116;101;114;110]; PFun "Association" 0; PFun "List" 2; PFun "LeafNode" 3; PSym "Symbol"; PStr [100]; PFun "Association" 1; PFun "Rule" 2; PSym "Source"; PFun "List" 2; PFun "List" 2; PInt 1; PInt 9; PFun "List" 2; PInt 1; PInt 10; PFun "CallNode" 3; PFun "LeafNode" 3; PSym "Symbol"; PStr [82;101;112;101;97;116;101;100]; PFun "Association" 0; PFun "List" 1; PFun "ErrorNode" 3; PSym "ExpectedOperand"; PStr []; PFun "Association" 1; PFun "Rule" 2; PSym "Source"; PFun "List" 2; PFun "List" 2; PInt 1; PInt 11; PFun "List" 2; PInt 1; PInt 11; PFun "Association" 1; PFun "Rule" 2; PSym "Source"; PFun "List" 2; PFun "List" 2; PInt 1; PInt 11; PFun "List" 2; PInt 1; PInt 13; PFun "Association" 1; PFun "Rule" 2; PSym "Source"; PFun "List" 2; PFun "List" 2; PInt 1; PInt 9; PFun "List" 2; PInt 1; PInt 13; PFun "Association" 1; PFun "Rule" 2; PSym "Source"; PFun "List" 2; PFun "List" 2; PInt 1; PInt 1; PFun "List" 2; PInt 1; PInt 13].
Proof. vm_compute. reflexivity. Qed.

(** Parse.mt Parse-20200322-I2K4Z7 *)
Example wl_105 : astp d1 [97;47;58;98;61;32;46;99;124;100;58;46;46] =
  Some [PFun "List" 1; PFun "CallNode" 3; PFun "LeafNode" 3; PSym "Symbol"; PStr [65;108;116;101;114;110;97;116;105;118;101;115]; PFun "Association" 0; PFun "List" 2; PFun "CallNode" 3; PFun "LeafNode" 3; PSym "Symbol"; PStr [84;105;109;101;115]; PFun "Association" 0; PFun "List" 2; PFun "CallNode" 3; PFun "LeafNode" 3; PSym "Symbol"; PStr [84;97;103;85;110;115;101;116]; PFun "Association" 0; PFun "List" 2; PFun "LeafNode" 3; PSym "Symbol"; PStr [97]; PFun "Association" 1; PFun "Rule" 2; PSym "Source"; PFun "List" 2; PFun "List" 2; PInt 1; PInt 1; PFun "List" 2; PInt 1; PInt 2; PFun "LeafNode" 3; PSym "Symbol"; PStr [98]; PFun "Association" 1; PFun "Rule" 2; PSym "Source"; PFun "List" 2; PFun "List" 2; PInt 1; PInt 4; PFun "List" 2; PInt 1; PInt 5; PFun "Association" 1; PFun "Rule" 2; PSym "Source"; PFun "List" 2; PFun "List" 2; PInt 1; PInt 1; PFun "List" 2; PInt 1; PInt 8; PFun "LeafNode" 3; PSym "Symbol"; PStr [99]; PFun "Association" 1; PFun "Rule" 2; PSym "Source"; PFun "List" 2; PFun "List" 2; PInt 1; PInt 8; PFun "List" 2; PInt 1; PInt 9; PFun "Association" 1; PFun "Rule" 2; PSym "Source"; PFun "List" 2; PFun "List" 2; PInt 1; PInt 1; PFun "List" 2; PInt 1; PInt 9; PFun "CallNode" 3; PFun "LeafNode" 3; PSym "Symbol"; PStr [80;97;116;116;101;114;110]; PFun "Association" 0; PFun "List" 2; PFun "LeafNode" 3; PSym "Symbol"; PStr [100]; PFun "Association" 1; PFun "Rule" 2; PSym "Source"; PFun "List" 2; PFun "List" 2; PInt 1; PInt 10; PFun "List" 2; PInt 1; PInt 11; PFun "CallNode" 3; PFun "LeafNode" 3; PSym "Symbol"; PStr [82;101;112;101;97;116;101;100]; PFun "Association" 0; PFun "List" 1; PFun "ErrorNode" 3; PSym "ExpectedOperand"; PStr []; PFun "Association" 1; PFun "Rule" 2; PSym "Source"; PFun "List" 2; PFun "List" 2; PInt 1; PInt 12; PFun "List" 2; PInt 1; PInt 12; PFun "Association" 1; PFun "Rule" 2; PSym "Source"; PFun "List" 2; PFun "List" 2; PInt 1; PInt 12; PFun "List" 2; PInt 1; PInt 14; PFun "Association" 1; PFun "Rule" 2; PSym "Source"; PFun "List" 2; PFun "List" 2; PInt 1; PInt 10; PFun "List" 2; PInt 1; PInt 14; PFun "Association" 1; PFun "Rule" 2; PSym "Source"; PFun "List" 2; PFun "List" 2; PInt 1; PInt 1; PFun "List" 2; PInt 1; PInt 14].
Proof. vm_compute. reflexivity. Qed.

(** Parse.mt Parse-20200320-D5E2I4 *)
Example wl_106 : astp d1 [97;32;47;58;32;98;32;61;46;32;64;32;99] =
  Some [PFun "List" 1; PFun "CallNode" 3; PFun "CallNode" 3; PFun "LeafNode" 3; PSym "Symbol"; PStr [84;97;103;85;110;115;101;116]; PFun "Association" 0; PFun "List" 2; PFun "LeafNode" 3; PSym "Symbol"; PStr [97]; PFun "Association" 1; PFun "Rule" 2; PSym "Source"; PFun "List" 2; PFun "List" 2; PInt 1; PInt 1; PFun "List" 2; PInt 1; PInt 2; PFun "LeafNode" 3; PSym "Symbol"; PStr [98]; PFun "Association" 1; PFun "Rule" 2; PSym "Source"; PFun "List" 2; PFun "List" 2; PInt 1; PInt 6; PFun "List" 2; PInt 1; PInt 7; PFun "Association" 1; PFun "Rule" 2; PSym "Source"; PFun "List" 2; PFun "List" 2; PInt 1; PInt 1; PFun "List" 2; PInt 1; PInt 10; PFun "List" 1; PFun "LeafNode" 3; PSym "Symbol"; PStr [99]; PFun "Association" 1; PFun "Rule" 2; PSym "Source"; PFun "List" 2; PFun "List" 2; PInt 1; PInt 13; PFun "List" 2; PInt 1; PInt 14; PFun "Association" 1; PFun "Rule" 2; PSym "Source"; PFun "List" 2; PFun "List" 2; PInt 1; PInt 1; PFun "List" 2; PInt 1; PInt 14].
Proof. vm_compute. reflexivity. Qed.

(** Parse.mt Parse-20200322-D5O4E5 *)
Example wl_107 : astp d1 [97;32;47;58;32;98;32;61;32;46;32;64;32;99] =
  Some [PFun "List" 1; PFun "CallNode" 3; PFun "CallNode" 3; PFun "LeafNode" 3; PSym "Symbol"; PStr [84;97;103;85;110;115;101;116]; PFun "Association" 0; PFun "List" 2; PFun "LeafNode" 3; PSym "Symbol"; PStr [97]; PFun "Association" 1; PFun "Rule" 2; PSym "Source"; PFun "List" 2; PFun "List" 2; PInt 1; PInt 1; PFun "List" 2; PInt 1; PInt 2; PFun "LeafNode" 3; PSym "Symbol"; PStr [98]; PFun "Association" 1; PFun "Rule" 2; PSym "Source"; PFun "List" 2; PFun "List" 2; PInt 1; PInt 6; PFun "List" 2; PInt 1; PInt 7; PFun "Association" 1; PFun "Rule" 2; PSym "Source"; PFun "List" 2; PFun "List" 2; PInt 1; PInt 1; PFun "List" 2; PInt 1; PInt 11; PFun "List" 1; PFun "LeafNode" 3; PSym "Symbol"; PStr [99]; PFun "Association" 1; PFun "Rule" 2; PSym "Source"; PFun "List" 2; PFun "List" 2; PInt 1; PInt 14; PFun "List" 2; PInt 1; PInt 15; PFun "Association" 1; PFun "Rule" 2; PSym "Source"; PFun "List" 2; PFun "List" 2; PInt 1; PInt 1; PFun "List" 2; PInt 1; PInt 15].
Proof. vm_compute. reflexivity. Qed.

(** Parse.mt Parse-20200413-B4O4W8 *)
Example wl_108 : astp d1 [35;49] =
  Some [PFun "List" 1; PFun "CallNode" 3; PFun "LeafNode" 3; PSym "Symbol"; PStr [83;108;111;116]; PFun "Association" 0; PFun "List" 1; PFun "LeafNode" 3; PSym "Integer"; PStr [49]; PFun "Association" 1; PFun "Rule" 2; PSym "Source"; PFun "List" 2; PFun "List" 2; PInt 1; PInt 2; PFun "List" 2; PInt 1; PInt 3; PFun "Association" 1; PFun "Rule" 2; PSym "Source"; PFun "List" 2; PFun "List" 2; PInt 1; PInt 1; PFun "List" 2; PInt 1; PInt 3].
Proof. vm_compute. reflexivity. Qed.

(** Parse.mt Parse-20200413-T5O4Q3 *)
Example wl_109 : astp d1 [35;97;98;99] =
  Some [PFun "List" 1; PFun "CallNode" 3; PFun "LeafNode" 3; PSym "Symbol"; PStr [83;108;111;116]; PFun "Association" 0; PFun "List" 1; PFun "LeafNode" 3; PSym "String"; PStr [34;97;98;99;34]; PFun "Association" 1; PFun "Rule" 2; PSym "Source"; PFun "List" 2; PFun "List" 2; PInt 1; PInt 2; PFun "List" 2; PInt 1; PInt 5; PFun "Association" 1; PFun "Rule" 2; PSym "Source"; PFun "List" 2; PFun "List" 2; PInt 1; PInt 1; PFun "List" 2; PInt 1; PInt 5].
Proof. vm_compute. reflexivity. Qed.

(** Parse.mt Parse-20200413-Q5X3J6 *)
Example wl_110 : astp d1 [35;35;50] =
  Some [PFun "List" 1; PFun "CallNode" 3; PFun "LeafNode" 3; PSym "Symbol"; PStr [83;108;111;116;83;101;113;117;101;110;99;101]; PFun "Association" 0; PFun "List" 1; PFun "LeafNode" 3; PSym "Integer"; PStr [50]; PFun "Association" 1; PFun "Rule" 2; PSym "Source"; PFun "List" 2; PFun "List" 2; PInt 1; PInt 3; PFun "List" 2; PInt 1; PInt 4; PFun "Association" 1; PFun "Rule" 2; PSym "Source"; PFun "List" 2; PFun "List" 2; PInt 1; PInt 1; PFun "List" 2; PInt 1; PInt 4].
Proof. vm_compute. reflexivity. Qed.

(** Parse.mt Parse-20200413-L1I2E4 *)
Example wl_111 : astp d1 [37;52;53] =
  Some [PFun "List" 1; PFun "CallNode" 3; PFun "LeafNode" 3; PSym "Symbol"; PStr [79;117;116]; PFun "Association" 0; PFun "List" 1; PFun "LeafNode" 3; PSym "Integer"; PStr [52;53]; PFun "Association" 1; PFun "Rule" 2; PSym "Source"; PFun "List" 2; PFun "List" 2; PInt 1; PInt 2; PFun "List" 2; PInt 1; PInt 4; PFun "Association" 1; PFun "Rule" 2; PSym "Source"; PFun "List" 2; PFun "List" 2; PInt 1; PInt 1; PFun "List" 2; PInt 1; PInt 4].
Proof. vm_compute. reflexivity. Qed.

(** Parse.mt Parse-20200413-G5B7Z1 *)
Example wl_112 : astp d1 [97;58;58;98;99;100] =
  Some [PFun "List" 1; PFun "CallNode" 3; PFun "LeafNode" 3; PSym "Symbol"; PStr [77;101;115;115;97;103;101;78;97;109;101]; PFun "Association" 0; PFun "List" 2; PFun "LeafNode" 3; PSym "Symbol"; PStr [97]; PFun "Association" 1; PFun "Rule" 2; PSym "Source"; PFun "List" 2; PFun "List" 2; PInt 1; PInt 1; PFun "List" 2; PInt 1; PInt 2; PFun "LeafNode" 3; PSym "String"; PStr [34;98;99;100;34]; PFun "Association" 1; PFun "Rule" 2; PSym "Source"; PFun "List" 2; PFun "List" 2; PInt 1; PInt 4; PFun "List" 2; PInt 1; PInt 7; PFun "Association" 1; PFun "Rule" 2; PSym "Source"; PFun "List" 2; PFun "List" 2; PInt 1; PInt 1; PFun "List" 2; PInt 1; PInt 7].
Proof. vm_compute. reflexivity. Qed.

(** Parse.mt Parse-20200415-P2Y8P6 *)
Example wl_113 : astp d1 [60;60;97;96] =
  Some [PFun "List" 1; PFun "CallNode" 3; PFun "LeafNode" 3; PSym "Symbol"; PStr [71;101;116]; PFun "Association" 0; PFun "List" 1; PFun "LeafNode" 3; PSym "String"; PStr [34;97;96;34]; PFun "Association" 1; PFun "Rule" 2; PSym "Source"; PFun "List" 2; PFun "List" 2; PInt 1; PInt 3; PFun "List" 2; PInt 1; PInt 5; PFun "Association" 1; PFun "Rule" 2; PSym "Source"; PFun "List" 2; PFun "List" 2; PInt 1; PInt 1; PFun "List" 2; PInt 1; PInt 5].
Proof. vm_compute. reflexivity. Qed.

(** Parse.mt Parse-20200415-I2M5B8 *)
Example wl_114 : astp d1 [60;60;34;97;96;34] =
  Some [PFun "List" 1; PFun "CallNode" 3; PFun "LeafNode" 3; PSym "Symbol"; PStr [71;101;116]; PFun "Association" 0; PFun "List" 1; PFun "LeafNode" 3; PSym "String"; PStr [34;97;96;34]; PFun "Association" 1; PFun "Rule" 2; PSym "Source"; PFun "List" 2; PFun "List" 2; PInt 1; PInt 3; PFun "List" 2; PInt 1; PInt 7; PFun "Association" 1; PFun "Rule" 2; PSym "Source"; PFun "List" 2; PFun "List" 2; PInt 1; PInt 1; PFun "List" 2; PInt 1; PInt 7].
Proof. vm_compute. reflexivity. Qed.

(** Parse.mt Parse-20200415-W4H4K5 *)
Example wl_115 : astp d1 [97;32;62;62;32;98] =
  Some [PFun "List" 1; PFun "CallNode" 3; PFun "LeafNode" 3; PSym "Symbol"; PStr [80;117;116]; PFun "Association" 0; PFun "List" 2; PFun "LeafNode" 3; PSym "Symbol"; PStr [97]; PFun "Association" 1; PFun "Rule" 2; PSym "Source"; PFun "List" 2; PFun "List" 2; PInt 1; PInt 1; PFun "List" 2; PInt 1; PInt 2; PFun "LeafNode" 3; PSym "String"; PStr [34;98;34]; PFun "Association" 1; PFun "Rule" 2; PSym "Source"; PFun "List" 2; PFun "List" 2; PInt 1; PInt 6; PFun "List" 2; PInt 1; PInt 7; PFun "Association" 1; PFun "Rule" 2; PSym "Source"; PFun "List" 2; PFun "List" 2; PInt 1; PInt 1; PFun "List" 2; PInt 1; PInt 7].
Proof. vm_compute. reflexivity. Qed.

(** Parse.mt Parse-20200415-X7O6E0 *)
Example wl_116 : astp d1 [97;32;62;62;32;34;98;34] =
  Some [PFun "List" 1; PFun "CallNode" 3; PFun "LeafNode" 3; PSym "Symbol"; PStr [80;117;116]; PFun "Association" 0; PFun "List" 2; PFun "LeafNode" 3; PSym "Symbol"; PStr [97]; PFun "Association" 1; PFun "Rule" 2; PSym "Source"; PFun "List" 2; PFun "List" 2; PInt 1; PInt 1; PFun "List" 2; PInt 1; PInt 2; PFun "LeafNode" 3; PSym "String"; PStr [34;98;34]; PFun "Association" 1; PFun "Rule" 2; PSym "Source"; PFun "List" 2; PFun "List" 2; PInt 1; PInt 6; PFun "List" 2; PInt 1; PInt 9; PFun "Association" 1; PFun "Rule" 2; PSym "Source"; PFun "List" 2; PFun "List" 2; PInt 1; PInt 1; PFun "List" 2; PInt 1; PInt 9].
Proof. vm_compute. reflexivity. Qed.

(** Parse.mt Parse-20200415-V0C2F3 *)
Example wl_117 : astp d1 [97;32;62;62;62;32;98] =
  Some [PFun "List" 1; PFun "CallNode" 3; PFun "LeafNode" 3; PSym "Symbol"; PStr [80;117;116;65;112;112;101;110;100]; PFun "Association" 0; PFun "List" 2; PFun "LeafNode" 3; PSym "Symbol"; PStr [97]; PFun "Association" 1; PFun "Rule" 2; PSym "Source"; PFun "List" 2; PFun "List" 2; PInt 1; PInt 1; PFun "List" 2; PInt 1; PInt 2; PFun "LeafNode" 3; PSym "String"; PStr [34;98;34]; PFun "Association" 1; PFun "Rule" 2; PSym "Source"; PFun "List" 2; PFun "List" 2; PInt 1; PInt 7; PFun "List" 2; PInt 1; PInt 8; PFun "Association" 1; PFun "Rule" 2; PSym "Source"; PFun "List" 2; PFun "List" 2; PInt 1; PInt 1; PFun "List" 2; PInt 1; PInt 8].
Proof. vm_compute. reflexivity. Qed.

(** Parse.mt Parse-20200415-N1P8Z5 *)
Example wl_118 : astp d1 [97;32;62;62;62;32;34;98;34] =
  Some [PFun "List" 1; PFun "CallNode" 3; PFun "LeafNode" 3; PSym "Symbol"; PStr [80;117;116;65;112;112;101;110;100]; PFun "Association" 0; PFun "List" 2; PFun "LeafNode" 3; PSym "Symbol"; PStr [97]; PFun "Association" 1; PFun "Rule" 2; PSym "Source"; PFun "List" 2; PFun "List" 2; PInt 1; PInt 1; PFun "List" 2; PInt 1; PInt 2; PFun "LeafNode" 3; PSym "String"; PStr [34;98;34]; PFun "Association" 1; PFun "Rule" 2; PSym "Source"; PFun "List" 2; PFun "List" 2; PInt 1; PInt 7; PFun "List" 2; PInt 1; PInt 10; PFun "Association" 1; PFun "Rule" 2; PSym "Source"; PFun "List" 2; PFun "List" 2; PInt 1; PInt 1; PFun "List" 2; PInt 1; PInt 10].
Proof. vm_compute. reflexivity. Qed.

(** Parse.mt Parse-20200703-O0D8F0 *)
Example wl_119 : astp d1 [123;44;125] =
  Some [PFun "List" 1; PFun "CallNode" 3; PFun "LeafNode" 3; PSym "Symbol"; PStr [76;105;115;116]; PFun "Association" 0; PFun "List" 2; PFun "LeafNode" 3; PSym "Symbol"; PStr [78;117;108;108]; PFun "Association" 1; PFun "Rule" 2; PSym "Source"; PFun "List" 2; PFun "List" 2; PInt 1; PInt 2; PFun "List" 2; PInt 1; PInt 2; PFun "LeafNode" 3; PSym "Symbol"; PStr [78;117;108;108]; PFun "Association" 1; PFun "Rule" 2; PSym "Source"; PFun "List" 2; PFun "List" 2; PInt 1; PInt 3; PFun "List" 2; PInt 1; PInt 3; PFun "Association" 1; PFun "Rule" 2; PSym "Source"; PFun "List" 2; PFun "List" 2; PInt 1; PInt 1; PFun "List" 2; PInt 1; PInt 4].
Proof. vm_compute. reflexivity. Qed.

(** Parse.mt Parse-20200803-R4W5C6 *)
Example wl_120 : astp d1 [92;40;40;42;10;42;41;92;41] =
  Some [PFun "List" 1; PFun "LeafNode" 3; PSym "LinearSyntaxBlob"; PStr [92;40;40;42;10;42;41;92;41]; PFun "Association" 1; PFun "Rule" 2; PSym "Source"; PFun "List" 2; PFun "List" 2; PInt 1; PInt 1; PFun "List" 2; PInt 2; PInt 5].
Proof. vm_compute. reflexivity. Qed.

(** Parse.mt Parse-20220601-I1A2U8 *)
Example wl_121 : cstp d1 [97;44;42;98] =
  Some [PFun "List" 1; PFun "InfixNode" 3; PSym "Comma"; PFun "List" 3; PFun "LeafNode" 3; PSym "Symbol"; PStr [97]; PFun "Association" 1; PFun "Rule" 2; PSym "Source"; PFun "List" 2; PFun "List" 2; PInt 1; PInt 1; PFun "List" 2; PInt 1; PInt 2; PFun "LeafNode" 3; PSym "Comma"; PStr [44]; PFun "Association" 1; PFun "Rule" 2; PSym "Source"; PFun "List" 2; PFun "List" 2; PInt 1; PInt 2; PFun "List" 2; PInt 1; PInt 3; PFun "InfixNode" 3; PSym "Times"; PFun "List" 3; PFun "ErrorNode" 3; PSym "ExpectedOperand"; PStr []; PFun "Association" 1; PFun "Rule" 2; PSym "Source"; PFun "List" 2; PFun "List" 2; PInt 1; PInt 3; PFun "List" 2; PInt 1; PInt 3; PFun "LeafNode" 3; PSym "Star"; PStr [42]; PFun "Association" 1; PFun "Rule" 2; PSym "Source"; PFun "List" 2; PFun "List" 2; PInt 1; PInt 3; PFun "List" 2; PInt 1; PInt 4; PFun "LeafNode" 3; PSym "Symbol"; PStr [98]; PFun "Association" 1; PFun "Rule" 2; PSym "Source"; PFun "List" 2; PFun "List" 2; PInt 1; PInt 4; PFun "List" 2; PInt 1; PInt 5; PFun "Association" 1; PFun "Rule" 2; PSym "Source"; PFun "List" 2; PFun "List" 2; PInt 1; PInt 3; PFun "List" 2; PInt 1; PInt 5; PFun "Association" 1; PFun "Rule" 2; PSym "Source"; PFun "List" 2; PFun "List" 2; PInt 1; PInt 1; PFun "List" 2; PInt 1; PInt 5].
Proof. vm_compute. reflexivity. Qed.

(** Parse.mt Parse-20200810-R4E3W9 *)
Example wl_122 : astp d1 [102;91;49;44;44;93] =
  Some [PFun "List" 1; PFun "CallNode" 3; PFun "LeafNode" 3; PSym "Symbol"; PStr [102]; PFun "Association" 1; PFun "Rule" 2; PSym "Source"; PFun "List" 2; PFun "List" 2; PInt 1; PInt 1; PFun "List" 2; PInt 1; PInt 2; PFun "List" 3; PFun "LeafNode" 3; PSym "Integer"; PStr [49]; PFun "Association" 1; PFun "Rule" 2; PSym "Source"; PFun "List" 2; PFun "List" 2; PInt 1; PInt 3; PFun "List" 2; PInt 1; PInt 4; PFun "LeafNode" 3; PSym "Symbol"; PStr [78;117;108;108]; PFun "Association" 1; PFun "Rule" 2; PSym "Source"; PFun "List" 2; PFun "List" 2; PInt 1; PInt 5; PFun "List" 2; PInt 1; PInt 5; PFun "LeafNode" 3; PSym "Symbol"; PStr [78;117;108;108]; PFun "Association" 1; PFun "Rule" 2; PSym "Source"; PFun "List" 2; PFun "List" 2; PInt 1; PInt 6; PFun "List" 2; PInt 1; PInt 6; PFun "Association" 1; PFun "Rule" 2; PSym "Source"; PFun "List" 2; PFun "List" 2; PInt 1; PInt 1; PFun "List" 2; PInt 1; PInt 7].
Proof. vm_compute. reflexivity. Qed.

(** Parse.mt Parse-20200810-F0V6V5 *)
Example wl_123 : astp d1 [102;91;49;92;91;73;110;118;105;115;105;98;108;101;67;111;109;109;97;93;92;91;73;110;118;105;115;105;98;108;101;67;111;109;109;97;93;93] =
  Some [PFun "List" 1; PFun "CallNode" 3; PFun "LeafNode" 3; PSym "Symbol"; PStr [102]; PFun "Association" 1; PFun "Rule" 2; PSym "Source"; PFun "List" 2; PFun "List" 2; PInt 1; PInt 1; PFun "List" 2; PInt 1; PInt 2; PFun "List" 3; PFun "LeafNode" 3; PSym "Integer"; PStr [49]; PFun "Association" 1; PFun "Rule" 2; PSym "Source"; PFun "List" 2; PFun "List" 2; PInt 1; PInt 3; PFun "List" 2; PInt 1; PInt 4; PFun "LeafNode" 3; PSym "Symbol"; PStr [78;117;108;108]; PFun "Association" 1; PFun "Rule" 2; PSym "Source"; PFun "List" 2; PFun "List" 2; PInt 1; PInt 21; PFun "List" 2; PInt 1; PInt 21; PFun "LeafNode" 3; PSym "Symbol"; PStr [78;117;108;108]; PFun "Association" 1; PFun "Rule" 2; PSym "Source"; PFun "List" 2; PFun "List" 2; PInt 1; PInt 38; PFun "List" 2; PInt 1; PInt 38; PFun "Association" 1; PFun "Rule" 2; PSym "Source"; PFun "List" 2; PFun "List" 2; PInt 1; PInt 1; PFun "List" 2; PInt 1; PInt 39].
Proof. vm_compute. reflexivity. Qed.

(** Span.mt Span-20191016-M3L9D1 *)
Example wl_124 : astp d1 [97;59;59;33] =
  Some [PFun "List" 1; PFun "CallNode" 3; PFun "LeafNode" 3; PSym "Symbol"; PStr [83;112;97;110]; PFun "Association" 0; PFun "List" 2; PFun "LeafNode" 3; PSym "Symbol"; PStr [97]; PFun "Association" 1; PFun "Rule" 2; PSym "Source"; PFun "List" 2; PFun "List" 2; PInt 1; PInt 1; PFun "List" 2; PInt 1; PInt 2; PFun "CallNode" 3; PFun "LeafNode" 3; PSym "Symbol"; PStr [78;111;116]; PFun "Association" 0; PFun "List" 1; PFun "ErrorNode" 3; PSym "ExpectedOperand"; PStr []; PFun "Association" 1; PFun "Rule" 2; PSym "Source"; PFun "List" 2; PFun "List" 2; PInt 1; PInt 5; PFun "List" 2; PInt 1; PInt 5; PFun "Association" 1; PFun "Rule" 2; PSym "Source"; PFun "List" 2; PFun "List" 2; PInt 1; PInt 4; PFun "List" 2; PInt 1; PInt 5; PFun "Association" 1; PFun "Rule" 2; PSym "Source"; PFun "List" 2; PFun "List" 2; PInt 1; PInt 1; PFun "List" 2; PInt 1; PInt 5].
Proof. vm_compute. reflexivity. Qed.

(** Span.mt Span-20191016-J5K9B8 *)
Example wl_125 : cstp d1 [97;32;59;59;32;38] =
  Some [PFun "List" 1; PFun "PostfixNode" 3; PSym "Function"; PFun "List" 2; PFun "BinaryNode" 3; PSym "Span"; PFun "List" 5; PFun "LeafNode" 3; PSym "Symbol"; PStr [97]; PFun "Association" 1; PFun "Rule" 2; PSym "Source"; PFun "List" 2; PFun "List" 2; PInt 1; PInt 1; PFun "List" 2; PInt 1; PInt 2; PFun "LeafNode" 3; PSym "Whitespace"; PStr [32]; PFun "Association" 1; PFun "Rule" 2; PSym "Source"; PFun "List" 2; PFun "List" 2; PInt 1; PInt 2; PFun "List" 2; PInt 1; PInt 3; PFun "LeafNode" 3; PSym "SemiSemi"; PStr [59;59]; PFun "Association" 1; PFun "Rule" 2; PSym "Source"; PFun "List" 2; PFun "List" 2; PInt 1; PInt 3; PFun "List" 2; PInt 1; PInt 5; PFun "LeafNode" 3; PSym "Whitespace"; PStr [32]; PFun "Association" 1; PFun "Rule" 2; PSym "Source"; PFun "List" 2; PFun "List" 2; PInt 1; PInt 5; PFun "List" 2; PInt 1; PInt 6; PFun "LeafNode" 3; PSym "ImplicitAll"; PStr []; PFun "Association" 1; PFun "Rule" 2; PSym "Source"; PFun "List" 2; PFun "List" 2; PInt 1; PInt 6; PFun "List" 2; PInt 1; PInt 6; PFun "Association" 1; PFun "Rule" 2; PSym "Source"; PFun "List" 2; PFun "List" 2; PInt 1; PInt 1; PFun "List" 2; PInt 1; PInt 6; PFun "LeafNode" 3; PSym "Amp"; PStr [38]; PFun "Association" 1; PFun "Rule" 2; PSym "Source"; PFun "List" 2; PFun "List" 2; PInt 1; PInt 6; PFun "List" 2; PInt 1; PInt 7; PFun "Association" 1; PFun "Rule" 2; PSym "Source"; PFun "List" 2; PFun "List" 2; PInt 1; PInt 1; PFun "List" 2; PInt 1; PInt 7].
Proof. vm_compute. reflexivity. Qed.

(** SyntaxErrorNodes.mt SyntaxErrorNodes-20190521-T2R4L9 *)
Example wl_126 : astp d1 [97;32;126;102] =
  Some [PFun "List" 1; PFun "SyntaxErrorNode" 3; PSym "ExpectedTilde"; PFun "List" 2; PFun "LeafNode" 3; PSym "Symbol"; PStr [97]; PFun "Association" 1; PFun "Rule" 2; PSym "Source"; PFun "List" 2; PFun "List" 2; PInt 1; PInt 1; PFun "List" 2; PInt 1; PInt 2; PFun "LeafNode" 3; PSym "Symbol"; PStr [102]; PFun "Association" 1; PFun "Rule" 2; PSym "Source"; PFun "List" 2; PFun "List" 2; PInt 1; PInt 4; PFun "List" 2; PInt 1; PInt 5; PFun "Association" 1; PFun "Rule" 2; PSym "Source"; PFun "List" 2; PFun "List" 2; PInt 1; PInt 1; PFun "List" 2; PInt 1; PInt 5].
Proof. vm_compute. reflexivity. Qed.

(** SyntaxErrorNodes.mt SyntaxErrorNodes-20200628-O0J0J1 *)
Example wl_127 : cstp d1 [126] =
  Some [PFun "List" 1; PFun "SyntaxErrorNode" 3; PSym "ExpectedTilde"; PFun "List" 3; PFun "ErrorNode" 3; PSym "ExpectedOperand"; PStr []; PFun "Association" 1; PFun "Rule" 2; PSym "Source"; PFun "List" 2; PFun "List" 2; PInt 1; PInt 1; PFun "List" 2; PInt 1; PInt 1; PFun "LeafNode" 3; PSym "Tilde"; PStr [126]; PFun "Association" 1; PFun "Rule" 2; PSym "Source"; PFun "List" 2; PFun "List" 2; PInt 1; PInt 1; PFun "List" 2; PInt 1; PInt 2; PFun "ErrorNode" 3; PSym "ExpectedOperand"; PStr []; PFun "Association" 1; PFun "Rule" 2; PSym "Source"; PFun "List" 2; PFun "List" 2; PInt 1; PInt 2; PFun "List" 2; PInt 1; PInt 2; PFun "Association" 1; PFun "Rule" 2; PSym "Source"; PFun "List" 2; PFun "List" 2; PInt 1; PInt 1; PFun "List" 2; PInt 1; PInt 2].
Proof. vm_compute. reflexivity. Qed.

(** SyntaxErrorNodes.mt SyntaxErrorNodes-20190521-D9G5L2 *)
Example wl_128 : astp d1 [97;32;47;58;32;98;32;42;32;99] =
  Some [PFun "List" 1; PFun "SyntaxErrorNode" 3; PSym "ExpectedSet"; PFun "List" 2; PFun "LeafNode" 3; PSym "Symbol"; PStr [97]; PFun "Association" 1; PFun "Rule" 2; PSym "Source"; PFun "List" 2; PFun "List" 2; PInt 1; PInt 1; PFun "List" 2; PInt 1; PInt 2; PFun "CallNode" 3; PFun "LeafNode" 3; PSym "Symbol"; PStr [84;105;109;101;115]; PFun "Association" 0; PFun "List" 2; PFun "LeafNode" 3; PSym "Symbol"; PStr [98]; PFun "Association" 1; PFun "Rule" 2; PSym "Source"; PFun "List" 2; PFun "List" 2; PInt 1; PInt 6; PFun "List" 2; PInt 1; PInt 7; PFun "LeafNode" 3; PSym "Symbol"; PStr [99]; PFun "Association" 1; PFun "Rule" 2; PSym "Source"; PFun "List" 2; PFun "List" 2; PInt 1; PInt 10; PFun "List" 2; PInt 1; PInt 11; PFun "Association" 1; PFun "Rule" 2; PSym "Source"; PFun "List" 2; PFun "List" 2; PInt 1; PInt 6; PFun "List" 2; PInt 1; PInt 11; PFun "Association" 1; PFun "Rule" 2; PSym "Source"; PFun "List" 2; PFun "List" 2; PInt 1; PInt 1; PFun "List" 2; PInt 1; PInt 11].
Proof. vm_compute. reflexivity. Qed.

(** TokenErrors.mt TokenErrors-20190520-B1H0A6 *)
Example wl_129 : tokp d1 [92;91;83;107;101;108;101;116;111;110;73;110;100;105;99;97;116;111;114;93] =
  Some [PFun "List" 1; PFun "ErrorNode" 3; PSym "UnhandledCharacter"; PStr [92;91;83;107;101;108;101;116;111;110;73;110;100;105;99;97;116;111;114;93]; PFun "Association" 1; PFun "Rule" 2; PSym "Source"; PFun "List" 2; PFun "List" 2; PInt 1; PInt 1; PFun "List" 2; PInt 1; PInt 21].
Proof. vm_compute. reflexivity. Qed.

(** TokenErrors.mt TokenErrors-20190816-G5Q8B5 *)
Example wl_130 : tokp d1 [92;34] =
  Some [PFun "List" 1; PFun "ErrorNode" 3; PSym "UnhandledCharacter"; PStr [92;34]; PFun "Association" 1; PFun "Rule" 2; PSym "Source"; PFun "List" 2; PFun "List" 2; PInt 1; PInt 1; PFun "List" 2; PInt 1; PInt 3].
Proof. vm_compute. reflexivity. Qed.

(** TokenErrors.mt TokenErrors-20190520-L5N7B0 *)
Example wl_131 : tokp d1 [97;58;58;92;34] =
  Some [PFun "List" 3; PFun "LeafNode" 3; PSym "Symbol"; PStr [97]; PFun "Association" 1; PFun "Rule" 2; PSym "Source"; PFun "List" 2; PFun "List" 2; PInt 1; PInt 1; PFun "List" 2; PInt 1; PInt 2; PFun "LeafNode" 3; PSym "ColonColon"; PStr [58;58]; PFun "Association" 1; PFun "Rule" 2; PSym "Source"; PFun "List" 2; PFun "List" 2; PInt 1; PInt 2; PFun "List" 2; PInt 1; PInt 4; PFun "ErrorNode" 3; PSym "UnhandledCharacter"; PStr [92;34]; PFun "Association" 1; PFun "Rule" 2; PSym "Source"; PFun "List" 2; PFun "List" 2; PInt 1; PInt 4; PFun "List" 2; PInt 1; PInt 6].
Proof. vm_compute. reflexivity. Qed.

(** TokenErrors.mt TokenErrors-20190520-C8W1P2 *)
Example wl_132 : tokp d1 [40;42] =
  Some [PFun "List" 1; PFun "ErrorNode" 3; PSym "UnterminatedComment"; PStr [40;42]; PFun "Association" 1; PFun "Rule" 2; PSym "Source"; PFun "List" 2; PFun "List" 2; PInt 1; PInt 1; PFun "List" 2; PInt 1; PInt 3].
Proof. vm_compute. reflexivity. Qed.

(** TokenErrors.mt TokenErrors-20190520-H9P0H9 *)
Example wl_133 : tokp d1 [97;97;97;96;49] =
  Some [PFun "List" 2; PFun "ErrorNode" 3; PSym "ExpectedLetterlike"; PStr [97;97;97;96]; PFun "Association" 1; PFun "Rule" 2; PSym "Source"; PFun "List" 2; PFun "List" 2; PInt 1; PInt 1; PFun "List" 2; PInt 1; PInt 5; PFun "LeafNode" 3; PSym "Integer"; PStr [49]; PFun "Association" 1; PFun "Rule" 2; PSym "Source"; PFun "List" 2; PFun "List" 2; PInt 1; PInt 5; PFun "List" 2; PInt 1; PInt 6].
Proof. vm_compute. reflexivity. Qed.

(** TokenErrors.mt TokenErrors-20190520-R2P3A3 *)
Example wl_134 : tokp d1 [97;58;58] =
  Some [PFun "List" 2; PFun "LeafNode" 3; PSym "Symbol"; PStr [97]; PFun "Association" 1; PFun "Rule" 2; PSym "Source"; PFun "List" 2; PFun "List" 2; PInt 1; PInt 1; PFun "List" 2; PInt 1; PInt 2; PFun "LeafNode" 3; PSym "ColonColon"; PStr [58;58]; PFun "Association" 1; PFun "Rule" 2; PSym "Source"; PFun "List" 2; PFun "List" 2; PInt 1; PInt 2; PFun "List" 2; PInt 1; PInt 4].
Proof. vm_compute. reflexivity. Qed.

(** TokenErrors.mt TokenErrors-20190520-M3H7E9 *)
Example wl_135 : tokp d1 [97;62;62] =
  Some [PFun "List" 2; PFun "LeafNode" 3; PSym "Symbol"; PStr [97]; PFun "Association" 1; PFun "Rule" 2; PSym "Source"; PFun "List" 2; PFun "List" 2; PInt 1; PInt 1; PFun "List" 2; PInt 1; PInt 2; PFun "LeafNode" 3; PSym "GreaterGreater"; PStr [62;62]; PFun "Association" 1; PFun "Rule" 2; PSym "Source"; PFun "List" 2; PFun "List" 2; PInt 1; PInt 2; PFun "List" 2; PInt 1; PInt 4].
Proof. vm_compute. reflexivity. Qed.

(** TokenErrors.mt TokenErrors-20190520-L6N6S8 *)
Example wl_136 : tokp d1 [34] =
  Some [PFun "List" 1; PFun "ErrorNode" 3; PSym "UnterminatedString"; PStr [34]; PFun "Association" 1; PFun "Rule" 2; PSym "Source"; PFun "List" 2; PFun "List" 2; PInt 1; PInt 1; PFun "List" 2; PInt 1; PInt 2].
Proof. vm_compute. reflexivity. Qed.

(** TokenErrors.mt TokenErrors-20190520-Q9B9R6 *)
Example wl_137 : tokp d1 [51;55;94;94;50] =
  Some [PFun "List" 1; PFun "ErrorNode" 3; PSym "Number"; PStr [51;55;94;94;50]; PFun "Association" 1; PFun "Rule" 2; PSym "Source"; PFun "List" 2; PFun "List" 2; PInt 1; PInt 1; PFun "List" 2; PInt 1; PInt 6].
Proof. vm_compute. reflexivity. Qed.

(** TokenErrors.mt TokenErrors-20190520-B7G4V4 *)
Example wl_138 : tokp d1 [50;94;94;51] =
  Some [PFun "List" 1; PFun "ErrorNode" 3; PSym "Number"; PStr [50;94;94;51]; PFun "Association" 1; PFun "Rule" 2; PSym "Source"; PFun "List" 2; PFun "List" 2; PInt 1; PInt 1; PFun "List" 2; PInt 1; PInt 5].
Proof. vm_compute. reflexivity. Qed.

(** TokenErrors.mt TokenErrors-20190520-J3Q2S7 *)
Example wl_139 : tokp d1 [50;94;94;64] =
  Some [PFun "List" 2; PFun "ErrorNode" 3; PSym "Number"; PStr [50;94;94]; PFun "Association" 1; PFun "Rule" 2; PSym "Source"; PFun "List" 2; PFun "List" 2; PInt 1; PInt 1; PFun "List" 2; PInt 1; PInt 4; PFun "LeafNode" 3; PSym "At"; PStr [64]; PFun "Association" 1; PFun "Rule" 2; PSym "Source"; PFun "List" 2; PFun "List" 2; PInt 1; PInt 4; PFun "List" 2; PInt 1; PInt 5].
Proof. vm_compute. reflexivity. Qed.

(** TokenErrors.mt TokenErrors-20190520-B2J9I4 *)
Example wl_140 : tokp d1 [49;46;50;96;96;45;62;51] =
  Some [PFun "List" 3; PFun "ErrorNode" 3; PSym "Number"; PStr [49;46;50;96;96;45]; PFun "Association" 1; PFun "Rule" 2; PSym "Source"; PFun "List" 2; PFun "List" 2; PInt 1; PInt 1; PFun "List" 2; PInt 1; PInt 7; PFun "LeafNode" 3; PSym "Greater"; PStr [62]; PFun "Association" 1; PFun "Rule" 2; PSym "Source"; PFun "List" 2; PFun "List" 2; PInt 1; PInt 7; PFun "List" 2; PInt 1; PInt 8; PFun "LeafNode" 3; PSym "Integer"; PStr [51]; PFun "Association" 1; PFun "Rule" 2; PSym "Source"; PFun "List" 2; PFun "List" 2; PInt 1; PInt 8; PFun "List" 2; PInt 1; PInt 9].
Proof. vm_compute. reflexivity. Qed.

(** TokenErrors.mt TokenErrors-20190520-L1J8C1 *)
Example wl_141 : tokp d1 [49;50;51;42;94] =
  Some [PFun "List" 1; PFun "ErrorNode" 3; PSym "Number"; PStr [49;50;51;42;94]; PFun "Association" 1; PFun "Rule" 2; PSym "Source"; PFun "List" 2; PFun "List" 2; PInt 1; PInt 1; PFun "List" 2; PInt 1; PInt 6].
Proof. vm_compute. reflexivity. Qed.

(** TokenErrors.mt TokenErrors-20190520-M3N7T5 *)
Example wl_142 : tokp d1 [97;32;94;58;32;102] =
  Some [PFun "List" 5; PFun "LeafNode" 3; PSym "Symbol"; PStr [97]; PFun "Association" 1; PFun "Rule" 2; PSym "Source"; PFun "List" 2; PFun "List" 2; PInt 1; PInt 1; PFun "List" 2; PInt 1; PInt 2; PFun "LeafNode" 3; PSym "Whitespace"; PStr [32]; PFun "Association" 1; PFun "Rule" 2; PSym "Source"; PFun "List" 2; PFun "List" 2; PInt 1; PInt 2; PFun "List" 2; PInt 1; PInt 3; PFun "ErrorNode" 3; PSym "ExpectedEqual"; PStr [94;58]; PFun "Association" 1; PFun "Rule" 2; PSym "Source"; PFun "List" 2; PFun "List" 2; PInt 1; PInt 3; PFun "List" 2; PInt 1; PInt 5; PFun "LeafNode" 3; PSym "Whitespace"; PStr [32]; PFun "Association" 1; PFun "Rule" 2; PSym "Source"; PFun "List" 2; PFun "List" 2; PInt 1; PInt 5; PFun "List" 2; PInt 1; PInt 6; PFun "LeafNode" 3; PSym "Symbol"; PStr [102]; PFun "Association" 1; PFun "Rule" 2; PSym "Source"; PFun "List" 2; PFun "List" 2; PInt 1; PInt 6; PFun "List" 2; PInt 1; PInt 7].
Proof. vm_compute. reflexivity. Qed.

(** Tokenize.mt Tokenize-20181208-O3D5M5 *)
Example wl_143 : tokp d1 [40;42;32;92;46;50;56;92;46;50;97;32;42;41] =
  Some [PFun "List" 1; PFun "LeafNode" 3; PSym "Comment"; PStr [40;42;32;92;46;50;56;92;46;50;97;32;42;41]; PFun "Association" 1; PFun "Rule" 2; PSym "Source"; PFun "List" 2; PFun "List" 2; PInt 1; PInt 1; PFun "List" 2; PInt 1; PInt 15].
Proof. vm_compute. reflexivity. Qed.

(** Tokenize.mt Tokenize-20181215-Z0H7Y5 *)
Example wl_144 : tokp d1 [49;46;50;96;96;45;62;51] =
  Some [PFun "List" 3; PFun "ErrorNode" 3; PSym "Number"; PStr [49;46;50;96;96;45]; PFun "Association" 1; PFun "Rule" 2; PSym "Source"; PFun "List" 2; PFun "List" 2; PInt 1; PInt 1; PFun "List" 2; PInt 1; PInt 7; PFun "LeafNode" 3; PSym "Greater"; PStr [62]; PFun "Association" 1; PFun "Rule" 2; PSym "Source"; PFun "List" 2; PFun "List" 2; PInt 1; PInt 7; PFun "List" 2; PInt 1; PInt 8; PFun "LeafNode" 3; PSym "Integer"; PStr [51]; PFun "Association" 1; PFun "Rule" 2; PSym "Source"; PFun "List" 2; PFun "List" 2; PInt 1; PInt 8; PFun "List" 2; PInt 1; PInt 9].
Proof. vm_compute. reflexivity. Qed.

(** Tokenize.mt Tokenize-20190406-A1G3U8 *)
Example wl_145 : tokp d1 [34;49;50;51;92;34] =
  Some [PFun "List" 1; PFun "ErrorNode" 3; PSym "UnterminatedString"; PStr [34;49;50;51;92;34]; PFun "Association" 1; PFun "Rule" 2; PSym "Source"; PFun "List" 2; PFun "List" 2; PInt 1; PInt 1; PFun "List" 2; PInt 1; PInt 7].
Proof. vm_compute. reflexivity. Qed.

(** Tokenize.mt Tokenize-20220709-J1V7W8 *)
Example wl_146 : tokp d1 [42;41] =
  Some [PFun "List" 1; PFun "ErrorNode" 3; PSym "UnexpectedCommentCloser"; PStr [42;41]; PFun "Association" 1; PFun "Rule" 2; PSym "Source"; PFun "List" 2; PFun "List" 2; PInt 1; PInt 1; PFun "List" 2; PInt 1; PInt 3].
Proof. vm_compute. reflexivity. Qed.

(** TypeSpecifier.mt TypeSpecifier-20220421-V2D3X7 *)
Example wl_147 : astp d1 [34;80;97;99;107;101;100;65;114;114;97;121;34;58;58;91;93] =
  Some [PFun "List" 1; PFun "CallNode" 3; PFun "CallNode" 3; PFun "LeafNode" 3; PSym "Symbol"; PStr [84;121;112;101;83;112;101;99;105;102;105;101;114]; PFun "Association" 0; PFun "List" 1; PFun "LeafNode" 3; PSym "String"; PStr [34;80;97;99;107;101;100;65;114;114;97;121;34]; PFun "Association" 1; PFun "Rule" 2; PSym "Source"; PFun "List" 2; PFun "List" 2; PInt 1; PInt 1; PFun "List" 2; PInt 1; PInt 14; PFun "Association" 0; PFun "List" 0; PFun "Association" 1; PFun "Rule" 2; PSym "Source"; PFun "List" 2; PFun "List" 2; PInt 1; PInt 1; PFun "List" 2; PInt 1; PInt 18].
Proof. vm_compute. reflexivity. Qed.

(** TypeSpecifier.mt TypeSpecifier-20220421-W2F5P2 *)
Example wl_148 : astp d1 [34;80;97;99;107;101;100;65;114;114;97;121;34;58;58;91;34;82;101;97;108;54;52;34;93] =
  Some [PFun "List" 1; PFun "CallNode" 3; PFun "CallNode" 3; PFun "LeafNode" 3; PSym "Symbol"; PStr [84;121;112;101;83;112;101;99;105;102;105;101;114]; PFun "Association" 0; PFun "List" 1; PFun "LeafNode" 3; PSym "String"; PStr [34;80;97;99;107;101;100;65;114;114;97;121;34]; PFun "Association" 1; PFun "Rule" 2; PSym "Source"; PFun "List" 2; PFun "List" 2; PInt 1; PInt 1; PFun "List" 2; PInt 1; PInt 14; PFun "Association" 0; PFun "List" 1; PFun "LeafNode" 3; PSym "String"; PStr [34;82;101;97;108;54;52;34]; PFun "Association" 1; PFun "Rule" 2; PSym "Source"; PFun "List" 2; PFun "List" 2; PInt 1; PInt 17; PFun "List" 2; PInt 1; PInt 25; PFun "Association" 1; PFun "Rule" 2; PSym "Source"; PFun "List" 2; PFun "List" 2; PInt 1; PInt 1; PFun "List" 2; PInt 1; PInt 26].
Proof. vm_compute. reflexivity. Qed.

(** TypeSpecifier.mt TypeSpecifier-20220421-P2R7E3 *)
Example wl_149 : astp d1 [34;80;97;99;107;101;100;65;114;114;97;121;34;58;58;91;34;82;101;97;108;54;52;34;44;32;49;93] =
  Some [PFun "List" 1; PFun "CallNode" 3; PFun "CallNode" 3; PFun "LeafNode" 3; PSym "Symbol"; PStr [84;121;112;101;83;112;101;99;105;102;105;101;114]; PFun "Association" 0; PFun "List" 1; PFun "LeafNode" 3; PSym "String"; PStr [34;80;97;99;107;101;100;65;114;114;97;121;34]; PFun "Association" 1; PFun "Rule" 2; PSym "Source"; PFun "List" 2; PFun "List" 2; PInt 1; PInt 1; PFun "List" 2; PInt 1; PInt 14; PFun "Association" 0; PFun "List" 2; PFun "LeafNode" 3; PSym "String"; PStr [34;82;101;97;108;54;52;34]; PFun "Association" 1; PFun "Rule" 2; PSym "Source"; PFun "List" 2; PFun "List" 2; PInt 1; PInt 17; PFun "List" 2; PInt 1; PInt 25; PFun "LeafNode" 3; PSym "Integer"; PStr [49]; PFun "Association" 1; PFun "Rule" 2; PSym "Source"; PFun "List" 2; PFun "List" 2; PInt 1; PInt 27; PFun "List" 2; PInt 1; PInt 28; PFun "Association" 1; PFun "Rule" 2; PSym "Source"; PFun "List" 2; PFun "List" 2; PInt 1; PInt 1; PFun "List" 2; PInt 1; PInt 29].
Proof. vm_compute. reflexivity. Qed.

(** TypeSpecifier.mt TypeSpecifier-20220506-Q5T6J2 *)
Example wl_150 : cstp d1 [58;58;91;93] =
  Some [PFun "List" 1; PFun "GroupNode" 3; PSym "GroupTypeSpecifier"; PFun "List" 2; PFun "LeafNode" 3; PSym "ColonColonOpenSquare"; PStr [58;58;91]; PFun "Association" 1; PFun "Rule" 2; PSym "Source"; PFun "List" 2; PFun "List" 2; PInt 1; PInt 1; PFun "List" 2; PInt 1; PInt 4; PFun "LeafNode" 3; PSym "CloseSquare"; PStr [93]; PFun "Association" 1; PFun "Rule" 2; PSym "Source"; PFun "List" 2; PFun "List" 2; PInt 1; PInt 4; PFun "List" 2; PInt 1; PInt 5; PFun "Association" 1; PFun "Rule" 2; PSym "Source"; PFun "List" 2; PFun "List" 2; PInt 1; PInt 1; PFun "List" 2; PInt 1; PInt 5].
Proof. vm_compute. reflexivity. Qed.

(** TypeSpecifier.mt TypeSpecifier-20220506-T4G6M1 *)
Example wl_151 : cstp d1 [102;58;58;91;93] =
  Some [PFun "List" 1; PFun "CallNode" 3; PFun "List" 1; PFun "LeafNode" 3; PSym "Symbol"; PStr [102]; PFun "Association" 1; PFun "Rule" 2; PSym "Source"; PFun "List" 2; PFun "List" 2; PInt 1; PInt 1; PFun "List" 2; PInt 1; PInt 2; PFun "GroupNode" 3; PSym "GroupTypeSpecifier"; PFun "List" 2; PFun "LeafNode" 3; PSym "ColonColonOpenSquare"; PStr [58;58;91]; PFun "Association" 1; PFun "Rule" 2; PSym "Source"; PFun "List" 2; PFun "List" 2; PInt 1; PInt 2; PFun "List" 2; PInt 1; PInt 5; PFun "LeafNode" 3; PSym "CloseSquare"; PStr [93]; PFun "Association" 1; PFun "Rule" 2; PSym "Source"; PFun "List" 2; PFun "List" 2; PInt 1; PInt 5; PFun "List" 2; PInt 1; PInt 6; PFun "Association" 1; PFun "Rule" 2; PSym "Source"; PFun "List" 2; PFun "List" 2; PInt 1; PInt 2; PFun "List" 2; PInt 1; PInt 6; PFun "Association" 1; PFun "Rule" 2; PSym "Source"; PFun "List" 2; PFun "List" 2; PInt 1; PInt 1; PFun "List" 2; PInt 1; PInt 6].
Proof. vm_compute. reflexivity. Qed.

(** Weird.mt Weird-20190601-M2O1W0 *)
Example wl_152 : astp d1 [92;91;73;110;116;101;103;114;97;108;93;32;102;32;92;91;68;105;102;102;101;114;101;110;116;105;97;108;68;93] =
  Some [PFun "List" 1; PFun "CallNode" 3; PFun "LeafNode" 3; PSym "Symbol"; PStr [73;110;116;101;103;114;97;116;101]; PFun "Association" 0; PFun "List" 2; PFun "LeafNode" 3; PSym "Symbol"; PStr [102]; PFun "Association" 1; PFun "Rule" 2; PSym "Source"; PFun "List" 2; PFun "List" 2; PInt 1; PInt 13; PFun "List" 2; PInt 1; PInt 14; PFun "ErrorNode" 3; PSym "ExpectedOperand"; PStr []; PFun "Association" 1; PFun "Rule" 2; PSym "Source"; PFun "List" 2; PFun "List" 2; PInt 1; PInt 31; PFun "List" 2; PInt 1; PInt 31; PFun "Association" 1; PFun "Rule" 2; PSym "Source"; PFun "List" 2; PFun "List" 2; PInt 1; PInt 1; PFun "List" 2; PInt 1; PInt 31].
Proof. vm_compute. reflexivity. Qed.

(** Weird.mt Weird-20220629-I9X4S4 *)
Example wl_153 : astp d1 [97;32;126;123;125;126;32;98] =
  Some [PFun "List" 1; PFun "CallNode" 3; PFun "CallNode" 3; PFun "LeafNode" 3; PSym "Symbol"; PStr [76;105;115;116]; PFun "Association" 0; PFun "List" 0; PFun "Association" 1; PFun "Rule" 2; PSym "Source"; PFun "List" 2; PFun "List" 2; PInt 1; PInt 4; PFun "List" 2; PInt 1; PInt 6; PFun "List" 2; PFun "LeafNode" 3; PSym "Symbol"; PStr [97]; PFun "Association" 1; PFun "Rule" 2; PSym "Source"; PFun "List" 2; PFun "List" 2; PInt 1; PInt 1; PFun "List" 2; PInt 1; PInt 2; PFun "LeafNode" 3; PSym "Symbol"; PStr [98]; PFun "Association" 1; PFun "Rule" 2; PSym "Source"; PFun "List" 2; PFun "List" 2; PInt 1; PInt 8; PFun "List" 2; PInt 1; PInt 9; PFun "Association" 1; PFun "Rule" 2; PSym "Source"; PFun "List" 2; PFun "List" 2; PInt 1; PInt 1; PFun "List" 2; PInt 1; PInt 9].
Proof. vm_compute. reflexivity. Qed.

(** Weird.mt Weird-20220629-F5L9D1 *)
Example wl_154 : astp d1 [97;32;126;102;59;126;32;98] =
  Some [PFun "List" 1; PFun "SyntaxErrorNode" 3; PSym "ExpectedTilde"; PFun "List" 2; PFun "CallNode" 3; PFun "LeafNode" 3; PSym "Symbol"; PStr [67;111;109;112;111;117;110;100;69;120;112;114;101;115;115;105;111;110]; PFun "Association" 0; PFun "List" 2; PFun "SyntaxErrorNode" 3; PSym "ExpectedTilde"; PFun "List" 2; PFun "LeafNode" 3; PSym "Symbol"; PStr [97]; PFun "Association" 1; PFun "Rule" 2; PSym "Source"; PFun "List" 2; PFun "List" 2; PInt 1; PInt 1; PFun "List" 2; PInt 1; PInt 2; PFun "LeafNode" 3; PSym "Symbol"; PStr [102]; PFun "Association" 1; PFun "Rule" 2; PSym "Source"; PFun "List" 2; PFun "List" 2; PInt 1; PInt 4; PFun "List" 2; PInt 1; PInt 5; PFun "Association" 1; PFun "Rule" 2; PSym "Source"; PFun "List" 2; PFun "List" 2; PInt 1; PInt 1; PFun "List" 2; PInt 1; PInt 5; PFun "LeafNode" 3; PSym "Symbol"; PStr [78;117;108;108]; PFun "Association" 1; PFun "Rule" 2; PSym "Source"; PFun "List" 2; PFun "List" 2; PInt 1; PInt 6; PFun "List" 2; PInt 1; PInt 6; PFun "Association" 1; PFun "Rule" 2; PSym "Source"; PFun "List" 2; PFun "List" 2; PInt 1; PInt 1; PFun "List" 2; PInt 1; PInt 6; PFun "LeafNode" 3; PSym "Symbol"; PStr [98]; PFun "Association" 1; PFun "Rule" 2; PSym "Source"; PFun "List" 2; PFun "List" 2; PInt 1; PInt 8; PFun "List" 2; PInt 1; PInt 9; PFun "Association" 1; PFun "Rule" 2; PSym "Source"; PFun "List" 2; PFun "List" 2; PInt 1; PInt 1; PFun "List" 2; PInt 1; PInt 9].
Proof. vm_compute. reflexivity. Qed.

(** Weird.mt Weird-20220629-Q2W2O5 *)
Example wl_155 : astp d1 [97;32;126;102;59;59;126;32;98] =
  Some [PFun "List" 1; PFun "SyntaxErrorNode" 3; PSym "ExpectedTilde"; PFun "List" 2; PFun "CallNode" 3; PFun "LeafNode" 3; PSym "Symbol"; PStr [83;112;97;110]; PFun "Association" 0; PFun "List" 2; PFun "SyntaxErrorNode" 3; PSym "ExpectedTilde"; PFun "List" 2; PFun "LeafNode" 3; PSym "Symbol"; PStr [97]; PFun "Association" 1; PFun "Rule" 2; PSym "Source"; PFun "List" 2; PFun "List" 2; PInt 1; PInt 1; PFun "List" 2; PInt 1; PInt 2; PFun "LeafNode" 3; PSym "Symbol"; PStr [102]; PFun "Association" 1; PFun "Rule" 2; PSym "Source"; PFun "List" 2; PFun "List" 2; PInt 1; PInt 4; PFun "List" 2; PInt 1; PInt 5; PFun "Association" 1; PFun "Rule" 2; PSym "Source"; PFun "List" 2; PFun "List" 2; PInt 1; PInt 1; PFun "List" 2; PInt 1; PInt 5; PFun "LeafNode" 3; PSym "Symbol"; PStr [65;108;108]; PFun "Association" 1; PFun "Rule" 2; PSym "Source"; PFun "List" 2; PFun "List" 2; PInt 1; PInt 7; PFun "List" 2; PInt 1; PInt 7; PFun "Association" 1; PFun "Rule" 2; PSym "Source"; PFun "List" 2; PFun "List" 2; PInt 1; PInt 1; PFun "List" 2; PInt 1; PInt 7; PFun "LeafNode" 3; PSym "Symbol"; PStr [98]; PFun "Association" 1; PFun "Rule" 2; PSym "Source"; PFun "List" 2; PFun "List" 2; PInt 1; PInt 9; PFun "List" 2; PInt 1; PInt 10; PFun "Association" 1; PFun "Rule" 2; PSym "Source"; PFun "List" 2; PFun "List" 2; PInt 1; PInt 1; PFun "List" 2; PInt 1; PInt 10].
Proof. vm_compute. reflexivity. Qed.

(** Weird.mt Weird-20220629-J5E3Z0 *)
Example wl_156 : astp d1 [120;32;46;32;45;121] =
  Some [PFun "List" 1; PFun "CallNode" 3; PFun "LeafNode" 3; PSym "Symbol"; PStr [68;111;116]; PFun "Association" 0; PFun "List" 2; PFun "LeafNode" 3; PSym "Symbol"; PStr [120]; PFun "Association" 1; PFun "Rule" 2; PSym "Source"; PFun "List" 2; PFun "List" 2; PInt 1; PInt 1; PFun "List" 2; PInt 1; PInt 2; PFun "CallNode" 3; PFun "LeafNode" 3; PSym "Symbol"; PStr [84;105;109;101;115]; PFun "Association" 0; PFun "List" 2; PFun "LeafNode" 3; PSym "Integer"; PStr [45;49]; PFun "Association" 0; PFun "LeafNode" 3; PSym "Symbol"; PStr [121]; PFun "Association" 1; PFun "Rule" 2; PSym "Source"; PFun "List" 2; PFun "List" 2; PInt 1; PInt 6; PFun "List" 2; PInt 1; PInt 7; PFun "Association" 1; PFun "Rule" 2; PSym "Source"; PFun "List" 2; PFun "List" 2; PInt 1; PInt 5; PFun "List" 2; PInt 1; PInt 7; PFun "Association" 1; PFun "Rule" 2; PSym "Source"; PFun "List" 2; PFun "List" 2; PInt 1; PInt 1; PFun "List" 2; PInt 1; PInt 7].
Proof. vm_compute. reflexivity. Qed.

(** Weird.mt Weird-20220629-V6B4O2 *)
Example wl_157 : astp d1 [120;32;92;91;68;105;102;102;101;114;101;110;116;105;97;108;68;93;32;33;121] =
  Some [PFun "List" 1; PFun "CallNode" 3; PFun "LeafNode" 3; PSym "Symbol"; PStr [84;105;109;101;115]; PFun "Association" 0; PFun "List" 2; PFun "LeafNode" 3; PSym "Symbol"; PStr [120]; PFun "Association" 1; PFun "Rule" 2; PSym "Source"; PFun "List" 2; PFun "List" 2; PInt 1; PInt 1; PFun "List" 2; PInt 1; PInt 2; PFun "CallNode" 3; PFun "LeafNode" 3; PSym "Symbol"; PStr [68;105;102;102;101;114;101;110;116;105;97;108;68]; PFun "Association" 0; PFun "List" 1; PFun "CallNode" 3; PFun "LeafNode" 3; PSym "Symbol"; PStr [78;111;116]; PFun "Association" 0; PFun "List" 1; PFun "LeafNode" 3; PSym "Symbol"; PStr [121]; PFun "Association" 1; PFun "Rule" 2; PSym "Source"; PFun "List" 2; PFun "List" 2; PInt 1; PInt 21; PFun "List" 2; PInt 1; PInt 22; PFun "Association" 1; PFun "Rule" 2; PSym "Source"; PFun "List" 2; PFun "List" 2; PInt 1; PInt 20; PFun "List" 2; PInt 1; PInt 22; PFun "Association" 1; PFun "Rule" 2; PSym "Source"; PFun "List" 2; PFun "List" 2; PInt 1; PInt 3; PFun "List" 2; PInt 1; PInt 22; PFun "Association" 1; PFun "Rule" 2; PSym "Source"; PFun "List" 2; PFun "List" 2; PInt 1; PInt 1; PFun "List" 2; PInt 1; PInt 22].
Proof. vm_compute. reflexivity. Qed.

(** Weird.mt Weird-20220629-T3T9P8 *)
Example wl_158 : astp d1 [120;32;92;91;67;97;112;105;116;97;108;68;105;102;102;101;114;101;110;116;105;97;108;68;93;32;33;121] =
  Some [PFun "List" 1; PFun "CallNode" 3; PFun "LeafNode" 3; PSym "Symbol"; PStr [84;105;109;101;115]; PFun "Association" 0; PFun "List" 2; PFun "LeafNode" 3; PSym "Symbol"; PStr [120]; PFun "Association" 1; PFun "Rule" 2; PSym "Source"; PFun "List" 2; PFun "List" 2; PInt 1; PInt 1; PFun "List" 2; PInt 1; PInt 2; PFun "CallNode" 3; PFun "LeafNode" 3; PSym "Symbol"; PStr [67;97;112;105;116;97;108;68;105;102;102;101;114;101;110;116;105;97;108;68]; PFun "Association" 0; PFun "List" 1; PFun "CallNode" 3; PFun "LeafNode" 3; PSym "Symbol"; PStr [78;111;116]; PFun "Association" 0; PFun "List" 1; PFun "LeafNode" 3; PSym "Symbol"; PStr [121]; PFun "Association" 1; PFun "Rule" 2; PSym "Source"; PFun "List" 2; PFun "List" 2; PInt 1; PInt 28; PFun "List" 2; PInt 1; PInt 29; PFun "Association" 1; PFun "Rule" 2; PSym "Source"; PFun "List" 2; PFun "List" 2; PInt 1; PInt 27; PFun "List" 2; PInt 1; PInt 29; PFun "Association" 1; PFun "Rule" 2; PSym "Source"; PFun "List" 2; PFun "List" 2; PInt 1; PInt 3; PFun "List" 2; PInt 1; PInt 29; PFun "Association" 1; PFun "Rule" 2; PSym "Source"; PFun "List" 2; PFun "List" 2; PInt 1; PInt 1; PFun "List" 2; PInt 1; PInt 29].
Proof. vm_compute. reflexivity. Qed.

(** Weird.mt Weird-20220629-L0Y6R5 *)
Example wl_159 : astp d1 [120;32;92;91;67;105;114;99;108;101;84;105;109;101;115;93;32;92;91;67;105;114;99;108;101;84;105;109;101;115;93;32;121] =
  Some [PFun "List" 1; PFun "CallNode" 3; PFun "LeafNode" 3; PSym "Symbol"; PStr [67;105;114;99;108;101;84;105;109;101;115]; PFun "Association" 0; PFun "List" 2; PFun "LeafNode" 3; PSym "Symbol"; PStr [120]; PFun "Association" 1; PFun "Rule" 2; PSym "Source"; PFun "List" 2; PFun "List" 2; PInt 1; PInt 1; PFun "List" 2; PInt 1; PInt 2; PFun "CallNode" 3; PFun "LeafNode" 3; PSym "Symbol"; PStr [67;105;114;99;108;101;84;105;109;101;115]; PFun "Association" 0; PFun "List" 1; PFun "LeafNode" 3; PSym "Symbol"; PStr [121]; PFun "Association" 1; PFun "Rule" 2; PSym "Source"; PFun "List" 2; PFun "List" 2; PInt 1; PInt 33; PFun "List" 2; PInt 1; PInt 34; PFun "Association" 1; PFun "Rule" 2; PSym "Source"; PFun "List" 2; PFun "List" 2; PInt 1; PInt 18; PFun "List" 2; PInt 1; PInt 34; PFun "Association" 1; PFun "Rule" 2; PSym "Source"; PFun "List" 2; PFun "List" 2; PInt 1; PInt 1; PFun "List" 2; PInt 1; PInt 34].
Proof. vm_compute. reflexivity. Qed.

(** Weird.mt Weird-20220629-J1S9O6 *)
Example wl_160 : astp d1 [92;91;83;113;114;116;93;32;92;91;67;105;114;99;108;101;84;105;109;101;115;93;32;120] =
  Some [PFun "List" 1; PFun "CallNode" 3; PFun "LeafNode" 3; PSym "Symbol"; PStr [83;113;114;116]; PFun "Association" 0; PFun "List" 1; PFun "CallNode" 3; PFun "LeafNode" 3; PSym "Symbol"; PStr [67;105;114;99;108;101;84;105;109;101;115]; PFun "Association" 0; PFun "List" 1; PFun "LeafNode" 3; PSym "Symbol"; PStr [120]; PFun "Association" 1; PFun "Rule" 2; PSym "Source"; PFun "List" 2; PFun "List" 2; PInt 1; PInt 24; PFun "List" 2; PInt 1; PInt 25; PFun "Association" 1; PFun "Rule" 2; PSym "Source"; PFun "List" 2; PFun "List" 2; PInt 1; PInt 9; PFun "List" 2; PInt 1; PInt 25; PFun "Association" 1; PFun "Rule" 2; PSym "Source"; PFun "List" 2; PFun "List" 2; PInt 1; PInt 1; PFun "List" 2; PInt 1; PInt 25].
Proof. vm_compute. reflexivity. Qed.

(** Weird.mt Weird-20220629-C5X4D3 *)
Example wl_161 : astp d1 [120;39;32;39] =
  Some [PFun "List" 1; PFun "CallNode" 3; PFun "CallNode" 3; PFun "LeafNode" 3; PSym "Symbol"; PStr [68;101;114;105;118;97;116;105;118;101]; PFun "Association" 0; PFun "List" 1; PFun "LeafNode" 3; PSym "Integer"; PStr [50]; PFun "Association" 0; PFun "Association" 0; PFun "List" 1; PFun "LeafNode" 3; PSym "Symbol"; PStr [120]; PFun "Association" 1; PFun "Rule" 2; PSym "Source"; PFun "List" 2; PFun "List" 2; PInt 1; PInt 1; PFun "List" 2; PInt 1; PInt 2; PFun "Association" 0].
Proof. vm_compute. reflexivity. Qed.

(** Weird.mt Weird-20220821-D0P3C2 *)
Example wl_162 : astp d1 [92;91;67;111;110;116;111;117;114;73;110;116;101;103;114;97;108;93;32;97;32;92;91;68;105;102;102;101;114;101;110;116;105;97;108;68;93;32;120] =
  Some [PFun "List" 1; PFun "CallNode" 3; PFun "LeafNode" 3; PSym "Symbol"; PStr [67;111;110;116;111;117;114;73;110;116;101;103;114;97;108]; PFun "Association" 0; PFun "List" 2; PFun "LeafNode" 3; PSym "Symbol"; PStr [97]; PFun "Association" 1; PFun "Rule" 2; PSym "Source"; PFun "List" 2; PFun "List" 2; PInt 1; PInt 20; PFun "List" 2; PInt 1; PInt 21; PFun "LeafNode" 3; PSym "Symbol"; PStr [120]; PFun "Association" 1; PFun "Rule" 2; PSym "Source"; PFun "List" 2; PFun "List" 2; PInt 1; PInt 39; PFun "List" 2; PInt 1; PInt 40; PFun "Association" 1; PFun "Rule" 2; PSym "Source"; PFun "List" 2; PFun "List" 2; PInt 1; PInt 1; PFun "List" 2; PInt 1; PInt 40].
Proof. vm_compute. reflexivity. Qed.

(** Weird.mt Weird-20220821-H4S8N6 *)
Example wl_163 : astp d1 [92;91;68;111;117;98;108;101;67;111;110;116;111;117;114;73;110;116;101;103;114;97;108;93;32;97;32;92;91;68;105;102;102;101;114;101;110;116;105;97;108;68;93;32;120] =
  Some [PFun "List" 1; PFun "CallNode" 3; PFun "LeafNode" 3; PSym "Symbol"; PStr [68;111;117;98;108;101;67;111;110;116;111;117;114;73;110;116;101;103;114;97;108]; PFun "Association" 0; PFun "List" 2; PFun "LeafNode" 3; PSym "Symbol"; PStr [97]; PFun "Association" 1; PFun "Rule" 2; PSym "Source"; PFun "List" 2; PFun "List" 2; PInt 1; PInt 26; PFun "List" 2; PInt 1; PInt 27; PFun "LeafNode" 3; PSym "Symbol"; PStr [120]; PFun "Association" 1; PFun "Rule" 2; PSym "Source"; PFun "List" 2; PFun "List" 2; PInt 1; PInt 45; PFun "List" 2; PInt 1; PInt 46; PFun "Association" 1; PFun "Rule" 2; PSym "Source"; PFun "List" 2; PFun "List" 2; PInt 1; PInt 1; PFun "List" 2; PInt 1; PInt 46].
Proof. vm_compute. reflexivity. Qed.

(** Weird.mt Weird-20220821-C2P4Y0 *)
Example wl_164 : astp d1 [92;91;67;108;111;99;107;119;105;115;101;67;111;110;116;111;117;114;73;110;116;101;103;114;97;108;93;32;97;32;92;91;68;105;102;102;101;114;101;110;116;105;97;108;68;93;32;120] =
  Some [PFun "List" 1; PFun "CallNode" 3; PFun "LeafNode" 3; PSym "Symbol"; PStr [67;108;111;99;107;119;105;115;101;67;111;110;116;111;117;114;73;110;116;101;103;114;97;108]; PFun "Association" 0; PFun "List" 2; PFun "LeafNode" 3; PSym "Symbol"; PStr [97]; PFun "Association" 1; PFun "Rule" 2; PSym "Source"; PFun "List" 2; PFun "List" 2; PInt 1; PInt 29; PFun "List" 2; PInt 1; PInt 30; PFun "LeafNode" 3; PSym "Symbol"; PStr [120]; PFun "Association" 1; PFun "Rule" 2; PSym "Source"; PFun "List" 2; PFun "List" 2; PInt 1; PInt 48; PFun "List" 2; PInt 1; PInt 49; PFun "Association" 1; PFun "Rule" 2; PSym "Source"; PFun "List" 2; PFun "List" 2; PInt 1; PInt 1; PFun "List" 2; PInt 1; PInt 49].
Proof. vm_compute. reflexivity. Qed.

(** Weird.mt Weird-20220821-X2S1Q0 *)
Example wl_165 : astp d1 [92;91;67;111;117;110;116;101;114;67;108;111;99;107;119;105;115;101;67;111;110;116;111;117;114;73;110;116;101;103;114;97;108;93;32;97;32;92;91;68;105;102;102;101;114;101;110;116;105;97;108;68;93;32;120] =
  Some [PFun "List" 1; PFun "CallNode" 3; PFun "LeafNode" 3; PSym "Symbol"; PStr [67;111;117;110;116;101;114;67;108;111;99;107;119;105;115;101;67;111;110;116;111;117;114;73;110;116;101;103;114;97;108]; PFun "Association" 0; PFun "List" 2; PFun "LeafNode" 3; PSym "Symbol"; PStr [97]; PFun "Association" 1; PFun "Rule" 2; PSym "Source"; PFun "List" 2; PFun "List" 2; PInt 1; PInt 36; PFun "List" 2; PInt 1; PInt 37; PFun "LeafNode" 3; PSym "Symbol"; PStr [120]; PFun "Association" 1; PFun "Rule" 2; PSym "Source"; PFun "List" 2; PFun "List" 2; PInt 1; PInt 55; PFun "List" 2; PInt 1; PInt 56; PFun "Association" 1; PFun "Rule" 2; PSym "Source"; PFun "List" 2; PFun "List" 2; PInt 1; PInt 1; PFun "List" 2; PInt 1; PInt 56].
Proof. vm_compute. reflexivity. Qed.

(** Weird.mt Weird-20220917-O2D5Y6 *)
Example wl_166 : astp d1 [97;32;92;91;72;101;114;109;105;116;105;97;110;67;111;110;106;117;103;97;116;101;93] =
  Some [PFun "List" 1; PFun "CallNode" 3; PFun "LeafNode" 3; PSym "Symbol"; PStr [67;111;110;106;117;103;97;116;101;84;114;97;110;115;112;111;115;101]; PFun "Association" 0; PFun "List" 1; PFun "LeafNode" 3; PSym "Symbol"; PStr [97]; PFun "Association" 1; PFun "Rule" 2; PSym "Source"; PFun "List" 2; PFun "List" 2; PInt 1; PInt 1; PFun "List" 2; PInt 1; PInt 2; PFun "Association" 1; PFun "Rule" 2; PSym "Source"; PFun "List" 2; PFun "List" 2; PInt 1; PInt 1; PFun "List" 2; PInt 1; PInt 24].
Proof. vm_compute. reflexivity. Qed.
