(** GENERATED by tools/gen_tables.py from /repo/crates/wolfram-parser/src/parse/operators.rs.  Do not edit. *)
From Coq Require Import ZArith List String.
Import ListNotations.
Local Open Scope Z_scope.


(** enum InfixOperator, numbered in declaration order *)
Definition IOP_Times : Z := 0.
Definition IOP_CompoundExpression : Z := 1.
Definition IOP_MessageName : Z := 2.
Definition IOP_CodeParser_InternalInvalid : Z := 3.
Definition IOP_CodeParser_Comma : Z := 4.
Definition IOP_CodeParser_InfixTilde : Z := 5.
Definition IOP_Plus : Z := 6.
Definition IOP_SameQ : Z := 7.
Definition IOP_UnsameQ : Z := 8.
Definition IOP_Dot : Z := 9.
Definition IOP_NonCommutativeMultiply : Z := 10.
Definition IOP_And : Z := 11.
Definition IOP_Or : Z := 12.
Definition IOP_Alternatives : Z := 13.
Definition IOP_StringJoin : Z := 14.
Definition IOP_StringExpression : Z := 15.
Definition IOP_Composition : Z := 16.
Definition IOP_RightComposition : Z := 17.
Definition IOP_Element : Z := 18.
Definition IOP_Subset : Z := 19.
Definition IOP_Superset : Z := 20.
Definition IOP_SubsetEqual : Z := 21.
Definition IOP_SupersetEqual : Z := 22.
Definition IOP_NotElement : Z := 23.
Definition IOP_NotSubset : Z := 24.
Definition IOP_NotSuperset : Z := 25.
Definition IOP_NotSubsetEqual : Z := 26.
Definition IOP_NotSupersetEqual : Z := 27.
Definition IOP_SquareSubset : Z := 28.
Definition IOP_SquareSuperset : Z := 29.
Definition IOP_NotSquareSubset : Z := 30.
Definition IOP_NotSquareSuperset : Z := 31.
Definition IOP_SquareSubsetEqual : Z := 32.
Definition IOP_SquareSupersetEqual : Z := 33.
Definition IOP_NotSquareSubsetEqual : Z := 34.
Definition IOP_NotSquareSupersetEqual : Z := 35.
Definition IOP_ReverseElement : Z := 36.
Definition IOP_NotReverseElement : Z := 37.
Definition IOP_Distributed : Z := 38.
Definition IOP_Xor : Z := 39.
Definition IOP_Nand : Z := 40.
Definition IOP_Nor : Z := 41.
Definition IOP_LeftArrow : Z := 42.
Definition IOP_RightArrow : Z := 43.
Definition IOP_LeftRightArrow : Z := 44.
Definition IOP_LeftTeeArrow : Z := 45.
Definition IOP_RightTeeArrow : Z := 46.
Definition IOP_RightArrowLeftArrow : Z := 47.
Definition IOP_LeftArrowRightArrow : Z := 48.
Definition IOP_DoubleLeftArrow : Z := 49.
Definition IOP_DoubleRightArrow : Z := 50.
Definition IOP_DoubleLeftRightArrow : Z := 51.
Definition IOP_LeftArrowBar : Z := 52.
Definition IOP_RightArrowBar : Z := 53.
Definition IOP_ShortRightArrow : Z := 54.
Definition IOP_ShortLeftArrow : Z := 55.
Definition IOP_UpperLeftArrow : Z := 56.
Definition IOP_UpperRightArrow : Z := 57.
Definition IOP_LowerRightArrow : Z := 58.
Definition IOP_LowerLeftArrow : Z := 59.
Definition IOP_LeftVector : Z := 60.
Definition IOP_RightVector : Z := 61.
Definition IOP_LeftRightVector : Z := 62.
Definition IOP_LeftVectorBar : Z := 63.
Definition IOP_RightVectorBar : Z := 64.
Definition IOP_LeftTeeVector : Z := 65.
Definition IOP_RightTeeVector : Z := 66.
Definition IOP_DownLeftVector : Z := 67.
Definition IOP_DownRightVector : Z := 68.
Definition IOP_DownLeftRightVector : Z := 69.
Definition IOP_DownLeftVectorBar : Z := 70.
Definition IOP_DownRightVectorBar : Z := 71.
Definition IOP_DownLeftTeeVector : Z := 72.
Definition IOP_DownRightTeeVector : Z := 73.
Definition IOP_UpArrow : Z := 74.
Definition IOP_DownArrow : Z := 75.
Definition IOP_UpDownArrow : Z := 76.
Definition IOP_UpTeeArrow : Z := 77.
Definition IOP_DownTeeArrow : Z := 78.
Definition IOP_UpArrowDownArrow : Z := 79.
Definition IOP_DoubleUpArrow : Z := 80.
Definition IOP_DoubleDownArrow : Z := 81.
Definition IOP_DoubleUpDownArrow : Z := 82.
Definition IOP_DownArrowUpArrow : Z := 83.
Definition IOP_LongLeftArrow : Z := 84.
Definition IOP_LongRightArrow : Z := 85.
Definition IOP_LongLeftRightArrow : Z := 86.
Definition IOP_DoubleLongLeftArrow : Z := 87.
Definition IOP_DoubleLongRightArrow : Z := 88.
Definition IOP_DoubleLongLeftRightArrow : Z := 89.
Definition IOP_UpArrowBar : Z := 90.
Definition IOP_DownArrowBar : Z := 91.
Definition IOP_ShortUpArrow : Z := 92.
Definition IOP_ShortDownArrow : Z := 93.
Definition IOP_RightUpVector : Z := 94.
Definition IOP_LeftUpVector : Z := 95.
Definition IOP_RightDownVector : Z := 96.
Definition IOP_LeftDownVector : Z := 97.
Definition IOP_RightUpDownVector : Z := 98.
Definition IOP_LeftUpDownVector : Z := 99.
Definition IOP_RightUpVectorBar : Z := 100.
Definition IOP_RightDownVectorBar : Z := 101.
Definition IOP_LeftUpVectorBar : Z := 102.
Definition IOP_LeftDownVectorBar : Z := 103.
Definition IOP_RightUpTeeVector : Z := 104.
Definition IOP_RightDownTeeVector : Z := 105.
Definition IOP_LeftUpTeeVector : Z := 106.
Definition IOP_LeftDownTeeVector : Z := 107.
Definition IOP_UpEquilibrium : Z := 108.
Definition IOP_ReverseUpEquilibrium : Z := 109.
Definition IOP_CenterDot : Z := 110.
Definition IOP_Equivalent : Z := 111.
Definition IOP_CircleDot : Z := 112.
Definition IOP_Conditioned : Z := 113.
Definition IOP_Union : Z := 114.
Definition IOP_SquareUnion : Z := 115.
Definition IOP_UnionPlus : Z := 116.
Definition IOP_Intersection : Z := 117.
Definition IOP_SquareIntersection : Z := 118.
Definition IOP_TensorWedge : Z := 119.
Definition IOP_TensorProduct : Z := 120.
Definition IOP_Cross : Z := 121.
Definition IOP_SmallCircle : Z := 122.
Definition IOP_Divisible : Z := 123.
Definition IOP_VerticalSeparator : Z := 124.
Definition IOP_Backslash : Z := 125.
Definition IOP_Diamond : Z := 126.
Definition IOP_Wedge : Z := 127.
Definition IOP_Vee : Z := 128.
Definition IOP_CircleTimes : Z := 129.
Definition IOP_Star : Z := 130.
Definition IOP_VerticalTilde : Z := 131.
Definition IOP_Coproduct : Z := 132.
Definition IOP_Cap : Z := 133.
Definition IOP_Cup : Z := 134.
Definition IOP_CirclePlus : Z := 135.
Definition IOP_VerticalBar : Z := 136.
Definition IOP_DoubleVerticalBar : Z := 137.
Definition IOP_NotVerticalBar : Z := 138.
Definition IOP_NotDoubleVerticalBar : Z := 139.
Definition IOP_LeftTriangle : Z := 140.
Definition IOP_RightTriangle : Z := 141.
Definition IOP_NotLeftTriangle : Z := 142.
Definition IOP_NotRightTriangle : Z := 143.
Definition IOP_LeftTriangleEqual : Z := 144.
Definition IOP_RightTriangleEqual : Z := 145.
Definition IOP_NotLeftTriangleEqual : Z := 146.
Definition IOP_NotRightTriangleEqual : Z := 147.
Definition IOP_LeftTriangleBar : Z := 148.
Definition IOP_RightTriangleBar : Z := 149.
Definition IOP_NotLeftTriangleBar : Z := 150.
Definition IOP_NotRightTriangleBar : Z := 151.
Definition IOP_TildeEqual : Z := 152.
Definition IOP_NotTildeEqual : Z := 153.
Definition IOP_TildeFullEqual : Z := 154.
Definition IOP_NotTildeFullEqual : Z := 155.
Definition IOP_Tilde : Z := 156.
Definition IOP_NotTilde : Z := 157.
Definition IOP_EqualTilde : Z := 158.
Definition IOP_NotEqualTilde : Z := 159.
Definition IOP_TildeTilde : Z := 160.
Definition IOP_NotTildeTilde : Z := 161.
Definition IOP_Proportional : Z := 162.
Definition IOP_Proportion : Z := 163.
Definition IOP_Congruent : Z := 164.
Definition IOP_NotCongruent : Z := 165.
Definition IOP_Equilibrium : Z := 166.
Definition IOP_ReverseEquilibrium : Z := 167.
Definition IOP_DotEqual : Z := 168.
Definition IOP_Precedes : Z := 169.
Definition IOP_Succeeds : Z := 170.
Definition IOP_PrecedesEqual : Z := 171.
Definition IOP_SucceedsEqual : Z := 172.
Definition IOP_PrecedesTilde : Z := 173.
Definition IOP_SucceedsTilde : Z := 174.
Definition IOP_PrecedesSlantEqual : Z := 175.
Definition IOP_SucceedsSlantEqual : Z := 176.
Definition IOP_NotPrecedes : Z := 177.
Definition IOP_NotSucceeds : Z := 178.
Definition IOP_NotPrecedesEqual : Z := 179.
Definition IOP_NotSucceedsEqual : Z := 180.
Definition IOP_NotPrecedesTilde : Z := 181.
Definition IOP_NotSucceedsTilde : Z := 182.
Definition IOP_NotPrecedesSlantEqual : Z := 183.
Definition IOP_NotSucceedsSlantEqual : Z := 184.
Definition IOP_CupCap : Z := 185.
Definition IOP_NotCupCap : Z := 186.
Definition IOP_HumpEqual : Z := 187.
Definition IOP_HumpDownHump : Z := 188.
Definition IOP_NotHumpEqual : Z := 189.
Definition IOP_NotHumpDownHump : Z := 190.
Definition IOP_CodeParser_InfixInequality : Z := 191.
Definition IOP_PermutationProduct : Z := 192.
Definition IOP_Colon : Z := 193.
Definition IOP_Xnor : Z := 194.
Definition IOP_ALL : list Z := [IOP_Times; IOP_CompoundExpression; IOP_MessageName; IOP_CodeParser_InternalInvalid; IOP_CodeParser_Comma; IOP_CodeParser_InfixTilde; IOP_Plus; IOP_SameQ; IOP_UnsameQ; IOP_Dot; IOP_NonCommutativeMultiply; IOP_And; IOP_Or; IOP_Alternatives; IOP_StringJoin; IOP_StringExpression; IOP_Composition; IOP_RightComposition; IOP_Element; IOP_Subset; IOP_Superset; IOP_SubsetEqual; IOP_SupersetEqual; IOP_NotElement; IOP_NotSubset; IOP_NotSuperset; IOP_NotSubsetEqual; IOP_NotSupersetEqual; IOP_SquareSubset; IOP_SquareSuperset; IOP_NotSquareSubset; IOP_NotSquareSuperset; IOP_SquareSubsetEqual; IOP_SquareSupersetEqual; IOP_NotSquareSubsetEqual; IOP_NotSquareSupersetEqual; IOP_ReverseElement; IOP_NotReverseElement; IOP_Distributed; IOP_Xor; IOP_Nand; IOP_Nor; IOP_LeftArrow; IOP_RightArrow; IOP_LeftRightArrow; IOP_LeftTeeArrow; IOP_RightTeeArrow; IOP_RightArrowLeftArrow; IOP_LeftArrowRightArrow; IOP_DoubleLeftArrow; IOP_DoubleRightArrow; IOP_DoubleLeftRightArrow; IOP_LeftArrowBar; IOP_RightArrowBar; IOP_ShortRightArrow; IOP_ShortLeftArrow; IOP_UpperLeftArrow; IOP_UpperRightArrow; IOP_LowerRightArrow; IOP_LowerLeftArrow; IOP_LeftVector; IOP_RightVector; IOP_LeftRightVector; IOP_LeftVectorBar; IOP_RightVectorBar; IOP_LeftTeeVector; IOP_RightTeeVector; IOP_DownLeftVector; IOP_DownRightVector; IOP_DownLeftRightVector; IOP_DownLeftVectorBar; IOP_DownRightVectorBar; IOP_DownLeftTeeVector; IOP_DownRightTeeVector; IOP_UpArrow; IOP_DownArrow; IOP_UpDownArrow; IOP_UpTeeArrow; IOP_DownTeeArrow; IOP_UpArrowDownArrow; IOP_DoubleUpArrow; IOP_DoubleDownArrow; IOP_DoubleUpDownArrow; IOP_DownArrowUpArrow; IOP_LongLeftArrow; IOP_LongRightArrow; IOP_LongLeftRightArrow; IOP_DoubleLongLeftArrow; IOP_DoubleLongRightArrow; IOP_DoubleLongLeftRightArrow; IOP_UpArrowBar; IOP_DownArrowBar; IOP_ShortUpArrow; IOP_ShortDownArrow; IOP_RightUpVector; IOP_LeftUpVector; IOP_RightDownVector; IOP_LeftDownVector; IOP_RightUpDownVector; IOP_LeftUpDownVector; IOP_RightUpVectorBar; IOP_RightDownVectorBar; IOP_LeftUpVectorBar; IOP_LeftDownVectorBar; IOP_RightUpTeeVector; IOP_RightDownTeeVector; IOP_LeftUpTeeVector; IOP_LeftDownTeeVector; IOP_UpEquilibrium; IOP_ReverseUpEquilibrium; IOP_CenterDot; IOP_Equivalent; IOP_CircleDot; IOP_Conditioned; IOP_Union; IOP_SquareUnion; IOP_UnionPlus; IOP_Intersection; IOP_SquareIntersection; IOP_TensorWedge; IOP_TensorProduct; IOP_Cross; IOP_SmallCircle; IOP_Divisible; IOP_VerticalSeparator; IOP_Backslash; IOP_Diamond; IOP_Wedge; IOP_Vee; IOP_CircleTimes; IOP_Star; IOP_VerticalTilde; IOP_Coproduct; IOP_Cap; IOP_Cup; IOP_CirclePlus; IOP_VerticalBar; IOP_DoubleVerticalBar; IOP_NotVerticalBar; IOP_NotDoubleVerticalBar; IOP_LeftTriangle; IOP_RightTriangle; IOP_NotLeftTriangle; IOP_NotRightTriangle; IOP_LeftTriangleEqual; IOP_RightTriangleEqual; IOP_NotLeftTriangleEqual; IOP_NotRightTriangleEqual; IOP_LeftTriangleBar; IOP_RightTriangleBar; IOP_NotLeftTriangleBar; IOP_NotRightTriangleBar; IOP_TildeEqual; IOP_NotTildeEqual; IOP_TildeFullEqual; IOP_NotTildeFullEqual; IOP_Tilde; IOP_NotTilde; IOP_EqualTilde; IOP_NotEqualTilde; IOP_TildeTilde; IOP_NotTildeTilde; IOP_Proportional; IOP_Proportion; IOP_Congruent; IOP_NotCongruent; IOP_Equilibrium; IOP_ReverseEquilibrium; IOP_DotEqual; IOP_Precedes; IOP_Succeeds; IOP_PrecedesEqual; IOP_SucceedsEqual; IOP_PrecedesTilde; IOP_SucceedsTilde; IOP_PrecedesSlantEqual; IOP_SucceedsSlantEqual; IOP_NotPrecedes; IOP_NotSucceeds; IOP_NotPrecedesEqual; IOP_NotSucceedsEqual; IOP_NotPrecedesTilde; IOP_NotSucceedsTilde; IOP_NotPrecedesSlantEqual; IOP_NotSucceedsSlantEqual; IOP_CupCap; IOP_NotCupCap; IOP_HumpEqual; IOP_HumpDownHump; IOP_NotHumpEqual; IOP_NotHumpDownHump; IOP_CodeParser_InfixInequality; IOP_PermutationProduct; IOP_Colon; IOP_Xnor].

(** enum PrefixOperator, numbered in declaration order *)
Definition PREOP_Information : Z := 0.
Definition PREOP_Get : Z := 1.
Definition PREOP_Minus : Z := 2.
Definition PREOP_Plus : Z := 3.
Definition PREOP_Not : Z := 4.
Definition PREOP_PreIncrement : Z := 5.
Definition PREOP_PreDecrement : Z := 6.
Definition PREOP_CodeParser_PrefixNot2 : Z := 7.
Definition PREOP_PlusMinus : Z := 8.
Definition PREOP_Sum : Z := 9.
Definition PREOP_Sqrt : Z := 10.
Definition PREOP_MinusPlus : Z := 11.
Definition PREOP_DifferentialD : Z := 12.
Definition PREOP_CapitalDifferentialD : Z := 13.
Definition PREOP_Del : Z := 14.
Definition PREOP_Square : Z := 15.
Definition PREOP_Product : Z := 16.
Definition PREOP_ContinuedFractionK : Z := 17.
Definition PREOP_CircleTimes : Z := 18.
Definition PREOP_ForAll : Z := 19.
Definition PREOP_Exists : Z := 20.
Definition PREOP_NotExists : Z := 21.
Definition PREOP_Coproduct : Z := 22.
Definition PREOP_Piecewise : Z := 23.
Definition PREOP_InvisiblePrefixScriptBase : Z := 24.
Definition PREOP_ExpectationE : Z := 25.
Definition PREOP_CubeRoot : Z := 26.
Definition PREOP_ProbabilityPr : Z := 27.
Definition PREOP_CodeParser_PrefixLinearSyntaxBang : Z := 28.
Definition PREOP_Integral : Z := 29.
Definition PREOP_ContourIntegral : Z := 30.
Definition PREOP_DoubleContourIntegral : Z := 31.
Definition PREOP_ClockwiseContourIntegral : Z := 32.
Definition PREOP_CounterClockwiseContourIntegral : Z := 33.
Definition PREOP_ALL : list Z := [PREOP_Information; PREOP_Get; PREOP_Minus; PREOP_Plus; PREOP_Not; PREOP_PreIncrement; PREOP_PreDecrement; PREOP_CodeParser_PrefixNot2; PREOP_PlusMinus; PREOP_Sum; PREOP_Sqrt; PREOP_MinusPlus; PREOP_DifferentialD; PREOP_CapitalDifferentialD; PREOP_Del; PREOP_Square; PREOP_Product; PREOP_ContinuedFractionK; PREOP_CircleTimes; PREOP_ForAll; PREOP_Exists; PREOP_NotExists; PREOP_Coproduct; PREOP_Piecewise; PREOP_InvisiblePrefixScriptBase; PREOP_ExpectationE; PREOP_CubeRoot; PREOP_ProbabilityPr; PREOP_CodeParser_PrefixLinearSyntaxBang; PREOP_Integral; PREOP_ContourIntegral; PREOP_DoubleContourIntegral; PREOP_ClockwiseContourIntegral; PREOP_CounterClockwiseContourIntegral].

(** enum PostfixOperator, numbered in declaration order *)
Definition POSTOP_Function : Z := 0.
Definition POSTOP_Repeated : Z := 1.
Definition POSTOP_Factorial : Z := 2.
Definition POSTOP_Decrement : Z := 3.
Definition POSTOP_Increment : Z := 4.
Definition POSTOP_RepeatedNull : Z := 5.
Definition POSTOP_Factorial2 : Z := 6.
Definition POSTOP_Derivative : Z := 7.
Definition POSTOP_Transpose : Z := 8.
Definition POSTOP_Conjugate : Z := 9.
Definition POSTOP_ConjugateTranspose : Z := 10.
Definition POSTOP_HermitianConjugate : Z := 11.
Definition POSTOP_InvisiblePostfixScriptBase : Z := 12.
Definition POSTOP_ALL : list Z := [POSTOP_Function; POSTOP_Repeated; POSTOP_Factorial; POSTOP_Decrement; POSTOP_Increment; POSTOP_RepeatedNull; POSTOP_Factorial2; POSTOP_Derivative; POSTOP_Transpose; POSTOP_Conjugate; POSTOP_ConjugateTranspose; POSTOP_HermitianConjugate; POSTOP_InvisiblePostfixScriptBase].

(** enum BinaryOperator, numbered in declaration order *)
Definition BOP_Pattern : Z := 0.
Definition BOP_Optional : Z := 1.
Definition BOP_Set : Z := 2.
Definition BOP_SetDelayed : Z := 3.
Definition BOP_Unset : Z := 4.
Definition BOP_Put : Z := 5.
Definition BOP_PutAppend : Z := 6.
Definition BOP_Span : Z := 7.
Definition BOP_Divide : Z := 8.
Definition BOP_Power : Z := 9.
Definition BOP_UpSet : Z := 10.
Definition BOP_UpSetDelayed : Z := 11.
Definition BOP_Map : Z := 12.
Definition BOP_Rule : Z := 13.
Definition BOP_Apply : Z := 14.
Definition BOP_Condition : Z := 15.
Definition BOP_ReplaceAll : Z := 16.
Definition BOP_RuleDelayed : Z := 17.
Definition BOP_ReplaceRepeated : Z := 18.
Definition BOP_AddTo : Z := 19.
Definition BOP_TimesBy : Z := 20.
Definition BOP_SubtractFrom : Z := 21.
Definition BOP_DivideBy : Z := 22.
Definition BOP_TwoWayRule : Z := 23.
Definition BOP_MapAll : Z := 24.
Definition BOP_CodeParser_BinaryAt : Z := 25.
Definition BOP_MapApply : Z := 26.
Definition BOP_CodeParser_BinarySlashSlash : Z := 27.
Definition BOP_PatternTest : Z := 28.
Definition BOP_Function : Z := 29.
Definition BOP_ApplyTo : Z := 30.
Definition BOP_Implies : Z := 31.
Definition BOP_RoundImplies : Z := 32.
Definition BOP_PlusMinus : Z := 33.
Definition BOP_DirectedEdge : Z := 34.
Definition BOP_UndirectedEdge : Z := 35.
Definition BOP_MinusPlus : Z := 36.
Definition BOP_CircleMinus : Z := 37.
Definition BOP_SuchThat : Z := 38.
Definition BOP_Perpendicular : Z := 39.
Definition BOP_Because : Z := 40.
Definition BOP_Therefore : Z := 41.
Definition BOP_RightTee : Z := 42.
Definition BOP_LeftTee : Z := 43.
Definition BOP_DoubleRightTee : Z := 44.
Definition BOP_DoubleLeftTee : Z := 45.
Definition BOP_UpTee : Z := 46.
Definition BOP_DownTee : Z := 47.
Definition BOP_Application : Z := 48.
Definition BOP_ALL : list Z := [BOP_Pattern; BOP_Optional; BOP_Set; BOP_SetDelayed; BOP_Unset; BOP_Put; BOP_PutAppend; BOP_Span; BOP_Divide; BOP_Power; BOP_UpSet; BOP_UpSetDelayed; BOP_Map; BOP_Rule; BOP_Apply; BOP_Condition; BOP_ReplaceAll; BOP_RuleDelayed; BOP_ReplaceRepeated; BOP_AddTo; BOP_TimesBy; BOP_SubtractFrom; BOP_DivideBy; BOP_TwoWayRule; BOP_MapAll; BOP_CodeParser_BinaryAt; BOP_MapApply; BOP_CodeParser_BinarySlashSlash; BOP_PatternTest; BOP_Function; BOP_ApplyTo; BOP_Implies; BOP_RoundImplies; BOP_PlusMinus; BOP_DirectedEdge; BOP_UndirectedEdge; BOP_MinusPlus; BOP_CircleMinus; BOP_SuchThat; BOP_Perpendicular; BOP_Because; BOP_Therefore; BOP_RightTee; BOP_LeftTee; BOP_DoubleRightTee; BOP_DoubleLeftTee; BOP_UpTee; BOP_DownTee; BOP_Application].

(** enum TernaryOperator, numbered in declaration order *)
Definition TOP_CodeParser_TernaryTilde : Z := 0.
Definition TOP_CodeParser_TernaryOptionalPattern : Z := 1.
Definition TOP_TagSet : Z := 2.
Definition TOP_TagSetDelayed : Z := 3.
Definition TOP_TagUnset : Z := 4.
Definition TOP_Span : Z := 5.
Definition TOP_ALL : list Z := [TOP_CodeParser_TernaryTilde; TOP_CodeParser_TernaryOptionalPattern; TOP_TagSet; TOP_TagSetDelayed; TOP_TagUnset; TOP_Span].

(** enum PrefixBinaryOperator, numbered in declaration order *)
Definition PBOP_Integrate : Z := 0.
Definition PBOP_ContourIntegral : Z := 1.
Definition PBOP_DoubleContourIntegral : Z := 2.
Definition PBOP_ClockwiseContourIntegral : Z := 3.
Definition PBOP_CounterClockwiseContourIntegral : Z := 4.
Definition PBOP_ALL : list Z := [PBOP_Integrate; PBOP_ContourIntegral; PBOP_DoubleContourIntegral; PBOP_ClockwiseContourIntegral; PBOP_CounterClockwiseContourIntegral].

(** enum CompoundOperator, numbered in declaration order *)
Definition COP_Blank : Z := 0.
Definition COP_BlankSequence : Z := 1.
Definition COP_BlankNullSequence : Z := 2.
Definition COP_Slot : Z := 3.
Definition COP_SlotSequence : Z := 4.
Definition COP_Out : Z := 5.
Definition COP_CodeParser_PatternBlank : Z := 6.
Definition COP_CodeParser_PatternBlankSequence : Z := 7.
Definition COP_CodeParser_PatternBlankNullSequence : Z := 8.
Definition COP_CodeParser_PatternOptionalDefault : Z := 9.
Definition COP_ALL : list Z := [COP_Blank; COP_BlankSequence; COP_BlankNullSequence; COP_Slot; COP_SlotSequence; COP_Out; COP_CodeParser_PatternBlank; COP_CodeParser_PatternBlankSequence; COP_CodeParser_PatternBlankNullSequence; COP_CodeParser_PatternOptionalDefault].

(** enum GroupOperator, numbered in declaration order *)
Definition GOP_Token_Comment : Z := 0.
Definition GOP_CodeParser_Comment : Z := 1.
Definition GOP_CodeParser_GroupParen : Z := 2.
Definition GOP_CodeParser_GroupSquare : Z := 3.
Definition GOP_List : Z := 4.
Definition GOP_Association : Z := 5.
Definition GOP_CodeParser_GroupTypeSpecifier : Z := 6.
Definition GOP_AngleBracket : Z := 7.
Definition GOP_Ceiling : Z := 8.
Definition GOP_Floor : Z := 9.
Definition GOP_CodeParser_GroupDoubleBracket : Z := 10.
Definition GOP_BracketingBar : Z := 11.
Definition GOP_DoubleBracketingBar : Z := 12.
Definition GOP_CurlyQuote : Z := 13.
Definition GOP_CurlyDoubleQuote : Z := 14.
Definition GOP_ALL : list Z := [GOP_Token_Comment; GOP_CodeParser_Comment; GOP_CodeParser_GroupParen; GOP_CodeParser_GroupSquare; GOP_List; GOP_Association; GOP_CodeParser_GroupTypeSpecifier; GOP_AngleBracket; GOP_Ceiling; GOP_Floor; GOP_CodeParser_GroupDoubleBracket; GOP_BracketingBar; GOP_DoubleBracketingBar; GOP_CurlyQuote; GOP_CurlyDoubleQuote].

(** enum CallOperator, numbered in declaration order *)
Definition CALLOP_CodeParser_GroupSquare : Z := 0.
Definition CALLOP_CodeParser_GroupDoubleBracket : Z := 1.
Definition CALLOP_CodeParser_GroupTypeSpecifier : Z := 2.
Definition CALLOP_ALL : list Z := [CALLOP_CodeParser_GroupSquare; CALLOP_CodeParser_GroupDoubleBracket; CALLOP_CodeParser_GroupTypeSpecifier].
