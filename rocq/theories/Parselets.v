(** Parselet types: parse/parselet.rs 113-394 (the trait objects of the code are the
    constructors, their fields the arguments). *)
From Coq Require Import ZArith.
Local Open Scope Z_scope.

(** Implementations of [PrefixParselet]. *)
Inductive prefix_parselet :=
| PP_Leaf | PP_PrefixEndOfFile | PP_PrefixError | PP_PrefixCloser | PP_PrefixUnsupportedToken
| PP_PrefixComma | PP_PrefixUnhandled
| PP_PrefixOperator (precedence op : Z)
| PP_Group (opener op : Z)
| PP_Symbol | PP_SemiSemi
| PP_Integral (op1 op2 : Z)
| PP_LessLess | PP_Hash | PP_HashHash | PP_Percent
| PP_Under (bop pbop : Z)
| PP_UnderDot.

(** Implementations of [InfixParselet]. *)
Inductive infix_parselet :=
| IP_InfixImplicitTimes | IP_InfixAssertFalse | IP_InfixDifferentialD | IP_InfixToplevelNewline
| IP_BinaryOperator (precedence op : Z)
| IP_InfixOperator (precedence op : Z)
| IP_Times
| IP_PostfixOperator (precedence op : Z)
| IP_Call (opener op : Z)
| IP_Comma | IP_Semi | IP_SemiSemi | IP_Tilde | IP_Colon | IP_SlashColon | IP_Equal | IP_ColonEqual
| IP_ColonColon | IP_GreaterGreater | IP_GreaterGreaterGreater.
