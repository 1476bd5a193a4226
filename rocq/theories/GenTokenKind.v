(** GENERATED by tools/gen_tables.py from /repo/crates/wolfram-parser/src/tokenize/token_kind.rs.  Do not edit. *)
From Coq Require Import ZArith List String.
Import ListNotations.
Local Open Scope Z_scope.

(** token_kind.rs, [token_kind!] invocation: one constant per variant, the value
    written in the source (the group bits are added by [Verif.TokenKind.variant]). *)
Definition TK_Unknown : Z := 0.
Definition TK_EndOfFile : Z := 1.
Definition TK_Symbol : Z := 2.
Definition TK_String : Z := 3.
Definition TK_Integer : Z := 4.
Definition TK_Real : Z := 5.
Definition TK_Rational : Z := 6.
Definition TK_LinearSyntaxBlob : Z := 7.
Definition TK_InternalNewline : Z := 8.
Definition TK_Comment : Z := 9.
Definition TK_Whitespace : Z := 10.
Definition TK_Buffer1 : Z := 11.
Definition TK_ToplevelNewline : Z := 12.
Definition TK_Buffer2 : Z := 13.
Definition TK_Buffer3 : Z := 14.
Definition TK_Buffer4 : Z := 15.
Definition TK_Error_ExpectedEqual : Z := 16.
Definition TK_Error_Number : Z := 17.
Definition TK_Error_UnhandledCharacter : Z := 18.
Definition TK_Error_ExpectedLetterlike : Z := 19.
Definition TK_Error_Aborted : Z := 20.
Definition TK_Error_ExpectedOperand : Z := 21.
Definition TK_Error_ExpectedTag : Z := 22.
Definition TK_Error_ExpectedFile : Z := 23.
Definition TK_Error_UnexpectedCloser : Z := 24.
Definition TK_Error_PrefixImplicitNull : Z := 25.
Definition TK_Error_InfixImplicitNull : Z := 26.
Definition TK_Error_UnsafeCharacterEncoding : Z := 27.
Definition TK_Error_UnterminatedComment : Z := 28.
Definition TK_Error_UnterminatedString : Z := 29.
Definition TK_Error_UnterminatedFileString : Z := 30.
Definition TK_Error_UnterminatedLinearSyntaxBlob : Z := 31.
Definition TK_Error_UnsupportedToken : Z := 32.
Definition TK_Error_UnexpectedCommentCloser : Z := 33.
Definition TK_Dot : Z := 34.
Definition TK_Colon : Z := 35.
Definition TK_OpenParen : Z := 36.
Definition TK_CloseParen : Z := 37.
Definition TK_OpenSquare : Z := 38.
Definition TK_CloseSquare : Z := 39.
Definition TK_Comma : Z := 40.
Definition TK_OpenCurly : Z := 41.
Definition TK_CloseCurly : Z := 42.
Definition TK_Equal : Z := 43.
Definition TK_Bang : Z := 44.
Definition TK_Under : Z := 45.
Definition TK_Less : Z := 46.
Definition TK_Greater : Z := 47.
Definition TK_Minus : Z := 48.
Definition TK_Bar : Z := 49.
Definition TK_Semi : Z := 50.
Definition TK_Hash : Z := 51.
Definition TK_Amp : Z := 52.
Definition TK_Slash : Z := 53.
Definition TK_At : Z := 54.
Definition TK_Plus : Z := 55.
Definition TK_Tilde : Z := 56.
Definition TK_Star : Z := 57.
Definition TK_Caret : Z := 58.
Definition TK_SingleQuote : Z := 59.
Definition TK_Percent : Z := 60.
Definition TK_Question : Z := 61.
Definition TK_DotDot : Z := 62.
Definition TK_ColonColon : Z := 63.
Definition TK_ColonEqual : Z := 64.
Definition TK_ColonGreater : Z := 65.
Definition TK_EqualEqual : Z := 66.
Definition TK_UnderUnder : Z := 67.
Definition TK_UnderDot : Z := 68.
Definition TK_LessBar : Z := 69.
Definition TK_LessLess : Z := 70.
Definition TK_LessGreater : Z := 71.
Definition TK_LessEqual : Z := 72.
Definition TK_GreaterGreater : Z := 73.
Definition TK_GreaterEqual : Z := 74.
Definition TK_MinusGreater : Z := 75.
Definition TK_MinusMinus : Z := 76.
Definition TK_MinusEqual : Z := 77.
Definition TK_BarBar : Z := 78.
Definition TK_BarGreater : Z := 79.
Definition TK_SemiSemi : Z := 80.
Definition TK_AmpAmp : Z := 81.
Definition TK_SlashAt : Z := 82.
Definition TK_SlashSemi : Z := 83.
Definition TK_SlashDot : Z := 84.
Definition TK_SlashSlash : Z := 85.
Definition TK_SlashColon : Z := 86.
Definition TK_SlashEqual : Z := 87.
Definition TK_SlashStar : Z := 88.
Definition TK_AtAt : Z := 89.
Definition TK_AtStar : Z := 90.
Definition TK_PlusPlus : Z := 91.
Definition TK_PlusEqual : Z := 92.
Definition TK_TildeTilde : Z := 93.
Definition TK_StarEqual : Z := 94.
Definition TK_StarStar : Z := 95.
Definition TK_CaretEqual : Z := 96.
Definition TK_HashHash : Z := 97.
Definition TK_BangEqual : Z := 98.
Definition TK_BangBang : Z := 99.
Definition TK_QuestionQuestion : Z := 100.
Definition TK_DotDotDot : Z := 101.
Definition TK_EqualEqualEqual : Z := 102.
Definition TK_EqualBangEqual : Z := 103.
Definition TK_UnderUnderUnder : Z := 104.
Definition TK_SlashSlashDot : Z := 105.
Definition TK_AtAtAt : Z := 106.
Definition TK_LessMinusGreater : Z := 107.
Definition TK_SlashSlashAt : Z := 108.
Definition TK_CaretColonEqual : Z := 109.
Definition TK_GreaterGreaterGreater : Z := 110.
Definition TK_BarMinusGreater : Z := 111.
Definition TK_SlashSlashEqual : Z := 112.
Definition TK_ColonColonOpenSquare : Z := 113.
Definition TK_PercentPercent : Z := 114.
Definition TK_LinearSyntax_Bang : Z := 115.
Definition TK_LinearSyntax_CloseParen : Z := 116.
Definition TK_LinearSyntax_At : Z := 117.
Definition TK_LinearSyntax_Amp : Z := 118.
Definition TK_LinearSyntax_Star : Z := 119.
Definition TK_LinearSyntax_Under : Z := 120.
Definition TK_LinearSyntax_Caret : Z := 121.
Definition TK_LinearSyntax_Space : Z := 122.
Definition TK_LinearSyntax_Percent : Z := 123.
Definition TK_LinearSyntax_Plus : Z := 124.
Definition TK_LinearSyntax_Slash : Z := 125.
Definition TK_LinearSyntax_BackTick : Z := 126.
Definition TK_Fake_ImplicitTimes : Z := 127.
Definition TK_Fake_ImplicitNull : Z := 128.
Definition TK_Fake_ImplicitOne : Z := 129.
Definition TK_Fake_ImplicitAll : Z := 130.
Definition TK_Boxes_OpenParenStar : Z := 131.
Definition TK_Boxes_StarCloseParen : Z := 132.
Definition TK_Boxes_MultiSingleQuote : Z := 133.
Definition TK_Boxes_MultiWhitespace : Z := 134.
Definition TK_LongName_Not : Z := 135.
Definition TK_LongName_PlusMinus : Z := 136.
Definition TK_LongName_CenterDot : Z := 137.
Definition TK_LongName_Times : Z := 138.
Definition TK_LongName_Divide : Z := 139.
Definition TK_LongName_OpenCurlyQuote : Z := 140.
Definition TK_LongName_CloseCurlyQuote : Z := 141.
Definition TK_LongName_OpenCurlyDoubleQuote : Z := 142.
Definition TK_LongName_CloseCurlyDoubleQuote : Z := 143.
Definition TK_LongName_InvisibleTimes : Z := 144.
Definition TK_LongName_LeftArrow : Z := 145.
Definition TK_LongName_UpArrow : Z := 146.
Definition TK_LongName_RightArrow : Z := 147.
Definition TK_LongName_DownArrow : Z := 148.
Definition TK_LongName_LeftRightArrow : Z := 149.
Definition TK_LongName_UpDownArrow : Z := 150.
Definition TK_LongName_UpperLeftArrow : Z := 151.
Definition TK_LongName_UpperRightArrow : Z := 152.
Definition TK_LongName_LowerRightArrow : Z := 153.
Definition TK_LongName_LowerLeftArrow : Z := 154.
Definition TK_LongName_LeftTeeArrow : Z := 155.
Definition TK_LongName_UpTeeArrow : Z := 156.
Definition TK_LongName_RightTeeArrow : Z := 157.
Definition TK_LongName_DownTeeArrow : Z := 158.
Definition TK_LongName_LeftVector : Z := 159.
Definition TK_LongName_DownLeftVector : Z := 160.
Definition TK_LongName_RightUpVector : Z := 161.
Definition TK_LongName_LeftUpVector : Z := 162.
Definition TK_LongName_RightVector : Z := 163.
Definition TK_LongName_DownRightVector : Z := 164.
Definition TK_LongName_RightDownVector : Z := 165.
Definition TK_LongName_LeftDownVector : Z := 166.
Definition TK_LongName_RightArrowLeftArrow : Z := 167.
Definition TK_LongName_UpArrowDownArrow : Z := 168.
Definition TK_LongName_LeftArrowRightArrow : Z := 169.
Definition TK_LongName_ReverseEquilibrium : Z := 170.
Definition TK_LongName_Equilibrium : Z := 171.
Definition TK_LongName_DoubleLeftArrow : Z := 172.
Definition TK_LongName_DoubleUpArrow : Z := 173.
Definition TK_LongName_DoubleRightArrow : Z := 174.
Definition TK_LongName_DoubleDownArrow : Z := 175.
Definition TK_LongName_DoubleLeftRightArrow : Z := 176.
Definition TK_LongName_DoubleUpDownArrow : Z := 177.
Definition TK_LongName_LeftArrowBar : Z := 178.
Definition TK_LongName_RightArrowBar : Z := 179.
Definition TK_LongName_DownArrowUpArrow : Z := 180.
Definition TK_LongName_ForAll : Z := 181.
Definition TK_LongName_PartialD : Z := 182.
Definition TK_LongName_Exists : Z := 183.
Definition TK_LongName_NotExists : Z := 184.
Definition TK_LongName_Del : Z := 185.
Definition TK_LongName_Element : Z := 186.
Definition TK_LongName_NotElement : Z := 187.
Definition TK_LongName_ReverseElement : Z := 188.
Definition TK_LongName_NotReverseElement : Z := 189.
Definition TK_LongName_SuchThat : Z := 190.
Definition TK_LongName_Product : Z := 191.
Definition TK_LongName_Coproduct : Z := 192.
Definition TK_LongName_Sum : Z := 193.
Definition TK_LongName_Minus : Z := 194.
Definition TK_LongName_MinusPlus : Z := 195.
Definition TK_LongName_DivisionSlash : Z := 196.
Definition TK_LongName_Backslash : Z := 197.
Definition TK_LongName_SmallCircle : Z := 198.
Definition TK_LongName_Sqrt : Z := 199.
Definition TK_LongName_CubeRoot : Z := 200.
Definition TK_LongName_Proportional : Z := 201.
Definition TK_LongName_Divides : Z := 202.
Definition TK_LongName_DoubleVerticalBar : Z := 203.
Definition TK_LongName_NotDoubleVerticalBar : Z := 204.
Definition TK_LongName_And : Z := 205.
Definition TK_LongName_Or : Z := 206.
Definition TK_LongName_Integral : Z := 207.
Definition TK_LongName_ContourIntegral : Z := 208.
Definition TK_LongName_DoubleContourIntegral : Z := 209.
Definition TK_LongName_ClockwiseContourIntegral : Z := 210.
Definition TK_LongName_CounterClockwiseContourIntegral : Z := 211.
Definition TK_LongName_Therefore : Z := 212.
Definition TK_LongName_Because : Z := 213.
Definition TK_LongName_Colon : Z := 214.
Definition TK_LongName_Proportion : Z := 215.
Definition TK_LongName_Tilde : Z := 216.
Definition TK_LongName_VerticalTilde : Z := 217.
Definition TK_LongName_NotTilde : Z := 218.
Definition TK_LongName_EqualTilde : Z := 219.
Definition TK_LongName_TildeEqual : Z := 220.
Definition TK_LongName_NotTildeEqual : Z := 221.
Definition TK_LongName_TildeFullEqual : Z := 222.
Definition TK_LongName_NotTildeFullEqual : Z := 223.
Definition TK_LongName_TildeTilde : Z := 224.
Definition TK_LongName_NotTildeTilde : Z := 225.
Definition TK_LongName_CupCap : Z := 226.
Definition TK_LongName_HumpDownHump : Z := 227.
Definition TK_LongName_HumpEqual : Z := 228.
Definition TK_LongName_DotEqual : Z := 229.
Definition TK_LongName_NotEqual : Z := 230.
Definition TK_LongName_Congruent : Z := 231.
Definition TK_LongName_NotCongruent : Z := 232.
Definition TK_LongName_LessEqual : Z := 233.
Definition TK_LongName_GreaterEqual : Z := 234.
Definition TK_LongName_LessFullEqual : Z := 235.
Definition TK_LongName_GreaterFullEqual : Z := 236.
Definition TK_LongName_NotLessFullEqual : Z := 237.
Definition TK_LongName_NotGreaterFullEqual : Z := 238.
Definition TK_LongName_LessLess : Z := 239.
Definition TK_LongName_GreaterGreater : Z := 240.
Definition TK_LongName_NotCupCap : Z := 241.
Definition TK_LongName_NotLess : Z := 242.
Definition TK_LongName_NotGreater : Z := 243.
Definition TK_LongName_NotLessEqual : Z := 244.
Definition TK_LongName_NotGreaterEqual : Z := 245.
Definition TK_LongName_LessTilde : Z := 246.
Definition TK_LongName_GreaterTilde : Z := 247.
Definition TK_LongName_NotLessTilde : Z := 248.
Definition TK_LongName_NotGreaterTilde : Z := 249.
Definition TK_LongName_LessGreater : Z := 250.
Definition TK_LongName_GreaterLess : Z := 251.
Definition TK_LongName_NotLessGreater : Z := 252.
Definition TK_LongName_NotGreaterLess : Z := 253.
Definition TK_LongName_Precedes : Z := 254.
Definition TK_LongName_Succeeds : Z := 255.
Definition TK_LongName_PrecedesSlantEqual : Z := 256.
Definition TK_LongName_SucceedsSlantEqual : Z := 257.
Definition TK_LongName_PrecedesTilde : Z := 258.
Definition TK_LongName_SucceedsTilde : Z := 259.
Definition TK_LongName_NotPrecedes : Z := 260.
Definition TK_LongName_NotSucceeds : Z := 261.
Definition TK_LongName_Subset : Z := 262.
Definition TK_LongName_Superset : Z := 263.
Definition TK_LongName_NotSubset : Z := 264.
Definition TK_LongName_NotSuperset : Z := 265.
Definition TK_LongName_SubsetEqual : Z := 266.
Definition TK_LongName_SupersetEqual : Z := 267.
Definition TK_LongName_NotSubsetEqual : Z := 268.
Definition TK_LongName_NotSupersetEqual : Z := 269.
Definition TK_LongName_UnionPlus : Z := 270.
Definition TK_LongName_SquareSubset : Z := 271.
Definition TK_LongName_SquareSuperset : Z := 272.
Definition TK_LongName_SquareSubsetEqual : Z := 273.
Definition TK_LongName_SquareSupersetEqual : Z := 274.
Definition TK_LongName_SquareIntersection : Z := 275.
Definition TK_LongName_SquareUnion : Z := 276.
Definition TK_LongName_CirclePlus : Z := 277.
Definition TK_LongName_CircleMinus : Z := 278.
Definition TK_LongName_CircleTimes : Z := 279.
Definition TK_LongName_CircleDot : Z := 280.
Definition TK_LongName_RightTee : Z := 281.
Definition TK_LongName_LeftTee : Z := 282.
Definition TK_LongName_DownTee : Z := 283.
Definition TK_LongName_UpTee : Z := 284.
Definition TK_LongName_DoubleRightTee : Z := 285.
Definition TK_LongName_LeftTriangle : Z := 286.
Definition TK_LongName_RightTriangle : Z := 287.
Definition TK_LongName_LeftTriangleEqual : Z := 288.
Definition TK_LongName_RightTriangleEqual : Z := 289.
Definition TK_LongName_Xor : Z := 290.
Definition TK_LongName_Nand : Z := 291.
Definition TK_LongName_Nor : Z := 292.
Definition TK_LongName_Wedge : Z := 293.
Definition TK_LongName_Vee : Z := 294.
Definition TK_LongName_Intersection : Z := 295.
Definition TK_LongName_Union : Z := 296.
Definition TK_LongName_Diamond : Z := 297.
Definition TK_LongName_Star : Z := 298.
Definition TK_LongName_LessEqualGreater : Z := 299.
Definition TK_LongName_GreaterEqualLess : Z := 300.
Definition TK_LongName_NotPrecedesSlantEqual : Z := 301.
Definition TK_LongName_NotSucceedsSlantEqual : Z := 302.
Definition TK_LongName_NotSquareSubsetEqual : Z := 303.
Definition TK_LongName_NotSquareSupersetEqual : Z := 304.
Definition TK_LongName_NotPrecedesTilde : Z := 305.
Definition TK_LongName_NotSucceedsTilde : Z := 306.
Definition TK_LongName_NotLeftTriangle : Z := 307.
Definition TK_LongName_NotRightTriangle : Z := 308.
Definition TK_LongName_NotLeftTriangleEqual : Z := 309.
Definition TK_LongName_NotRightTriangleEqual : Z := 310.
Definition TK_LongName_LeftCeiling : Z := 311.
Definition TK_LongName_RightCeiling : Z := 312.
Definition TK_LongName_LeftFloor : Z := 313.
Definition TK_LongName_RightFloor : Z := 314.
Definition TK_LongName_Cap : Z := 315.
Definition TK_LongName_Cup : Z := 316.
Definition TK_LongName_LeftAngleBracket : Z := 317.
Definition TK_LongName_RightAngleBracket : Z := 318.
Definition TK_LongName_Perpendicular : Z := 319.
Definition TK_LongName_LongLeftArrow : Z := 320.
Definition TK_LongName_LongRightArrow : Z := 321.
Definition TK_LongName_LongLeftRightArrow : Z := 322.
Definition TK_LongName_DoubleLongLeftArrow : Z := 323.
Definition TK_LongName_DoubleLongRightArrow : Z := 324.
Definition TK_LongName_DoubleLongLeftRightArrow : Z := 325.
Definition TK_LongName_UpArrowBar : Z := 326.
Definition TK_LongName_DownArrowBar : Z := 327.
Definition TK_LongName_LeftRightVector : Z := 328.
Definition TK_LongName_RightUpDownVector : Z := 329.
Definition TK_LongName_DownLeftRightVector : Z := 330.
Definition TK_LongName_LeftUpDownVector : Z := 331.
Definition TK_LongName_LeftVectorBar : Z := 332.
Definition TK_LongName_RightVectorBar : Z := 333.
Definition TK_LongName_RightUpVectorBar : Z := 334.
Definition TK_LongName_RightDownVectorBar : Z := 335.
Definition TK_LongName_DownLeftVectorBar : Z := 336.
Definition TK_LongName_DownRightVectorBar : Z := 337.
Definition TK_LongName_LeftUpVectorBar : Z := 338.
Definition TK_LongName_LeftDownVectorBar : Z := 339.
Definition TK_LongName_LeftTeeVector : Z := 340.
Definition TK_LongName_RightTeeVector : Z := 341.
Definition TK_LongName_RightUpTeeVector : Z := 342.
Definition TK_LongName_RightDownTeeVector : Z := 343.
Definition TK_LongName_DownLeftTeeVector : Z := 344.
Definition TK_LongName_DownRightTeeVector : Z := 345.
Definition TK_LongName_LeftUpTeeVector : Z := 346.
Definition TK_LongName_LeftDownTeeVector : Z := 347.
Definition TK_LongName_UpEquilibrium : Z := 348.
Definition TK_LongName_ReverseUpEquilibrium : Z := 349.
Definition TK_LongName_RoundImplies : Z := 350.
Definition TK_LongName_LeftTriangleBar : Z := 351.
Definition TK_LongName_RightTriangleBar : Z := 352.
Definition TK_LongName_Equivalent : Z := 353.
Definition TK_LongName_LessSlantEqual : Z := 354.
Definition TK_LongName_GreaterSlantEqual : Z := 355.
Definition TK_LongName_NestedLessLess : Z := 356.
Definition TK_LongName_NestedGreaterGreater : Z := 357.
Definition TK_LongName_PrecedesEqual : Z := 358.
Definition TK_LongName_SucceedsEqual : Z := 359.
Definition TK_LongName_DoubleLeftTee : Z := 360.
Definition TK_LongName_LeftDoubleBracket : Z := 361.
Definition TK_LongName_RightDoubleBracket : Z := 362.
Definition TK_LongName_LeftAssociation : Z := 363.
Definition TK_LongName_RightAssociation : Z := 364.
Definition TK_LongName_TwoWayRule : Z := 365.
Definition TK_LongName_Piecewise : Z := 366.
Definition TK_LongName_ImplicitPlus : Z := 367.
Definition TK_LongName_AutoLeftMatch : Z := 368.
Definition TK_LongName_AutoRightMatch : Z := 369.
Definition TK_LongName_InvisiblePrefixScriptBase : Z := 370.
Definition TK_LongName_InvisiblePostfixScriptBase : Z := 371.
Definition TK_LongName_Transpose : Z := 372.
Definition TK_LongName_Conjugate : Z := 373.
Definition TK_LongName_ConjugateTranspose : Z := 374.
Definition TK_LongName_HermitianConjugate : Z := 375.
Definition TK_LongName_VerticalBar : Z := 376.
Definition TK_LongName_NotVerticalBar : Z := 377.
Definition TK_LongName_Distributed : Z := 378.
Definition TK_LongName_Conditioned : Z := 379.
Definition TK_LongName_UndirectedEdge : Z := 380.
Definition TK_LongName_DirectedEdge : Z := 381.
Definition TK_LongName_ContinuedFractionK : Z := 382.
Definition TK_LongName_TensorProduct : Z := 383.
Definition TK_LongName_TensorWedge : Z := 384.
Definition TK_LongName_ProbabilityPr : Z := 385.
Definition TK_LongName_ExpectationE : Z := 386.
Definition TK_LongName_PermutationProduct : Z := 387.
Definition TK_LongName_NotEqualTilde : Z := 388.
Definition TK_LongName_NotHumpEqual : Z := 389.
Definition TK_LongName_NotHumpDownHump : Z := 390.
Definition TK_LongName_NotLeftTriangleBar : Z := 391.
Definition TK_LongName_NotRightTriangleBar : Z := 392.
Definition TK_LongName_NotLessLess : Z := 393.
Definition TK_LongName_NotNestedLessLess : Z := 394.
Definition TK_LongName_NotLessSlantEqual : Z := 395.
Definition TK_LongName_NotGreaterGreater : Z := 396.
Definition TK_LongName_NotNestedGreaterGreater : Z := 397.
Definition TK_LongName_NotGreaterSlantEqual : Z := 398.
Definition TK_LongName_NotPrecedesEqual : Z := 399.
Definition TK_LongName_NotSucceedsEqual : Z := 400.
Definition TK_LongName_NotSquareSubset : Z := 401.
Definition TK_LongName_NotSquareSuperset : Z := 402.
Definition TK_LongName_Equal : Z := 403.
Definition TK_LongName_VerticalSeparator : Z := 404.
Definition TK_LongName_VectorGreater : Z := 405.
Definition TK_LongName_VectorGreaterEqual : Z := 406.
Definition TK_LongName_VectorLess : Z := 407.
Definition TK_LongName_VectorLessEqual : Z := 408.
Definition TK_LongName_Limit : Z := 409.
Definition TK_LongName_MaxLimit : Z := 410.
Definition TK_LongName_MinLimit : Z := 411.
Definition TK_LongName_Cross : Z := 412.
Definition TK_LongName_Function : Z := 413.
Definition TK_LongName_Xnor : Z := 414.
Definition TK_LongName_DiscreteShift : Z := 415.
Definition TK_LongName_DifferenceDelta : Z := 416.
Definition TK_LongName_DiscreteRatio : Z := 417.
Definition TK_LongName_RuleDelayed : Z := 418.
Definition TK_LongName_Square : Z := 419.
Definition TK_LongName_Rule : Z := 420.
Definition TK_LongName_Implies : Z := 421.
Definition TK_LongName_ShortRightArrow : Z := 422.
Definition TK_LongName_ShortLeftArrow : Z := 423.
Definition TK_LongName_ShortUpArrow : Z := 424.
Definition TK_LongName_ShortDownArrow : Z := 425.
Definition TK_LongName_Application : Z := 426.
Definition TK_LongName_LeftBracketingBar : Z := 427.
Definition TK_LongName_RightBracketingBar : Z := 428.
Definition TK_LongName_LeftDoubleBracketingBar : Z := 429.
Definition TK_LongName_RightDoubleBracketingBar : Z := 430.
Definition TK_LongName_CapitalDifferentialD : Z := 431.
Definition TK_LongName_DifferentialD : Z := 432.
Definition TK_LongName_InvisibleComma : Z := 433.
Definition TK_LongName_InvisibleApplication : Z := 434.
Definition TK_LongName_LongEqual : Z := 435.

Definition KINDS : list (Z * string) := [
  (TK_Unknown, "Unknown"%string); (TK_EndOfFile, "EndOfFile"%string);
  (TK_Symbol, "Symbol"%string); (TK_String, "String"%string);
  (TK_Integer, "Integer"%string); (TK_Real, "Real"%string);
  (TK_Rational, "Rational"%string); (TK_LinearSyntaxBlob, "LinearSyntaxBlob"%string);
  (TK_InternalNewline, "InternalNewline"%string); (TK_Comment, "Comment"%string);
  (TK_Whitespace, "Whitespace"%string); (TK_Buffer1, "Buffer1"%string);
  (TK_ToplevelNewline, "ToplevelNewline"%string); (TK_Buffer2, "Buffer2"%string);
  (TK_Buffer3, "Buffer3"%string); (TK_Buffer4, "Buffer4"%string);
  (TK_Error_ExpectedEqual, "Error_ExpectedEqual"%string); (TK_Error_Number, "Error_Number"%string);
  (TK_Error_UnhandledCharacter, "Error_UnhandledCharacter"%string); (TK_Error_ExpectedLetterlike, "Error_ExpectedLetterlike"%string);
  (TK_Error_Aborted, "Error_Aborted"%string); (TK_Error_ExpectedOperand, "Error_ExpectedOperand"%string);
  (TK_Error_ExpectedTag, "Error_ExpectedTag"%string); (TK_Error_ExpectedFile, "Error_ExpectedFile"%string);
  (TK_Error_UnexpectedCloser, "Error_UnexpectedCloser"%string); (TK_Error_PrefixImplicitNull, "Error_PrefixImplicitNull"%string);
  (TK_Error_InfixImplicitNull, "Error_InfixImplicitNull"%string); (TK_Error_UnsafeCharacterEncoding, "Error_UnsafeCharacterEncoding"%string);
  (TK_Error_UnterminatedComment, "Error_UnterminatedComment"%string); (TK_Error_UnterminatedString, "Error_UnterminatedString"%string);
  (TK_Error_UnterminatedFileString, "Error_UnterminatedFileString"%string); (TK_Error_UnterminatedLinearSyntaxBlob, "Error_UnterminatedLinearSyntaxBlob"%string);
  (TK_Error_UnsupportedToken, "Error_UnsupportedToken"%string); (TK_Error_UnexpectedCommentCloser, "Error_UnexpectedCommentCloser"%string);
  (TK_Dot, "Dot"%string); (TK_Colon, "Colon"%string);
  (TK_OpenParen, "OpenParen"%string); (TK_CloseParen, "CloseParen"%string);
  (TK_OpenSquare, "OpenSquare"%string); (TK_CloseSquare, "CloseSquare"%string);
  (TK_Comma, "Comma"%string); (TK_OpenCurly, "OpenCurly"%string);
  (TK_CloseCurly, "CloseCurly"%string); (TK_Equal, "Equal"%string);
  (TK_Bang, "Bang"%string); (TK_Under, "Under"%string);
  (TK_Less, "Less"%string); (TK_Greater, "Greater"%string);
  (TK_Minus, "Minus"%string); (TK_Bar, "Bar"%string);
  (TK_Semi, "Semi"%string); (TK_Hash, "Hash"%string);
  (TK_Amp, "Amp"%string); (TK_Slash, "Slash"%string);
  (TK_At, "At"%string); (TK_Plus, "Plus"%string);
  (TK_Tilde, "Tilde"%string); (TK_Star, "Star"%string);
  (TK_Caret, "Caret"%string); (TK_SingleQuote, "SingleQuote"%string);
  (TK_Percent, "Percent"%string); (TK_Question, "Question"%string);
  (TK_DotDot, "DotDot"%string); (TK_ColonColon, "ColonColon"%string);
  (TK_ColonEqual, "ColonEqual"%string); (TK_ColonGreater, "ColonGreater"%string);
  (TK_EqualEqual, "EqualEqual"%string); (TK_UnderUnder, "UnderUnder"%string);
  (TK_UnderDot, "UnderDot"%string); (TK_LessBar, "LessBar"%string);
  (TK_LessLess, "LessLess"%string); (TK_LessGreater, "LessGreater"%string);
  (TK_LessEqual, "LessEqual"%string); (TK_GreaterGreater, "GreaterGreater"%string);
  (TK_GreaterEqual, "GreaterEqual"%string); (TK_MinusGreater, "MinusGreater"%string);
  (TK_MinusMinus, "MinusMinus"%string); (TK_MinusEqual, "MinusEqual"%string);
  (TK_BarBar, "BarBar"%string); (TK_BarGreater, "BarGreater"%string);
  (TK_SemiSemi, "SemiSemi"%string); (TK_AmpAmp, "AmpAmp"%string);
  (TK_SlashAt, "SlashAt"%string); (TK_SlashSemi, "SlashSemi"%string);
  (TK_SlashDot, "SlashDot"%string); (TK_SlashSlash, "SlashSlash"%string);
  (TK_SlashColon, "SlashColon"%string); (TK_SlashEqual, "SlashEqual"%string);
  (TK_SlashStar, "SlashStar"%string); (TK_AtAt, "AtAt"%string);
  (TK_AtStar, "AtStar"%string); (TK_PlusPlus, "PlusPlus"%string);
  (TK_PlusEqual, "PlusEqual"%string); (TK_TildeTilde, "TildeTilde"%string);
  (TK_StarEqual, "StarEqual"%string); (TK_StarStar, "StarStar"%string);
  (TK_CaretEqual, "CaretEqual"%string); (TK_HashHash, "HashHash"%string);
  (TK_BangEqual, "BangEqual"%string); (TK_BangBang, "BangBang"%string);
  (TK_QuestionQuestion, "QuestionQuestion"%string); (TK_DotDotDot, "DotDotDot"%string);
  (TK_EqualEqualEqual, "EqualEqualEqual"%string); (TK_EqualBangEqual, "EqualBangEqual"%string);
  (TK_UnderUnderUnder, "UnderUnderUnder"%string); (TK_SlashSlashDot, "SlashSlashDot"%string);
  (TK_AtAtAt, "AtAtAt"%string); (TK_LessMinusGreater, "LessMinusGreater"%string);
  (TK_SlashSlashAt, "SlashSlashAt"%string); (TK_CaretColonEqual, "CaretColonEqual"%string);
  (TK_GreaterGreaterGreater, "GreaterGreaterGreater"%string); (TK_BarMinusGreater, "BarMinusGreater"%string);
  (TK_SlashSlashEqual, "SlashSlashEqual"%string); (TK_ColonColonOpenSquare, "ColonColonOpenSquare"%string);
  (TK_PercentPercent, "PercentPercent"%string); (TK_LinearSyntax_Bang, "LinearSyntax_Bang"%string);
  (TK_LinearSyntax_CloseParen, "LinearSyntax_CloseParen"%string); (TK_LinearSyntax_At, "LinearSyntax_At"%string);
  (TK_LinearSyntax_Amp, "LinearSyntax_Amp"%string); (TK_LinearSyntax_Star, "LinearSyntax_Star"%string);
  (TK_LinearSyntax_Under, "LinearSyntax_Under"%string); (TK_LinearSyntax_Caret, "LinearSyntax_Caret"%string);
  (TK_LinearSyntax_Space, "LinearSyntax_Space"%string); (TK_LinearSyntax_Percent, "LinearSyntax_Percent"%string);
  (TK_LinearSyntax_Plus, "LinearSyntax_Plus"%string); (TK_LinearSyntax_Slash, "LinearSyntax_Slash"%string);
  (TK_LinearSyntax_BackTick, "LinearSyntax_BackTick"%string); (TK_Fake_ImplicitTimes, "Fake_ImplicitTimes"%string);
  (TK_Fake_ImplicitNull, "Fake_ImplicitNull"%string); (TK_Fake_ImplicitOne, "Fake_ImplicitOne"%string);
  (TK_Fake_ImplicitAll, "Fake_ImplicitAll"%string); (TK_Boxes_OpenParenStar, "Boxes_OpenParenStar"%string);
  (TK_Boxes_StarCloseParen, "Boxes_StarCloseParen"%string); (TK_Boxes_MultiSingleQuote, "Boxes_MultiSingleQuote"%string);
  (TK_Boxes_MultiWhitespace, "Boxes_MultiWhitespace"%string); (TK_LongName_Not, "LongName_Not"%string);
  (TK_LongName_PlusMinus, "LongName_PlusMinus"%string); (TK_LongName_CenterDot, "LongName_CenterDot"%string);
  (TK_LongName_Times, "LongName_Times"%string); (TK_LongName_Divide, "LongName_Divide"%string);
  (TK_LongName_OpenCurlyQuote, "LongName_OpenCurlyQuote"%string); (TK_LongName_CloseCurlyQuote, "LongName_CloseCurlyQuote"%string);
  (TK_LongName_OpenCurlyDoubleQuote, "LongName_OpenCurlyDoubleQuote"%string); (TK_LongName_CloseCurlyDoubleQuote, "LongName_CloseCurlyDoubleQuote"%string);
  (TK_LongName_InvisibleTimes, "LongName_InvisibleTimes"%string); (TK_LongName_LeftArrow, "LongName_LeftArrow"%string);
  (TK_LongName_UpArrow, "LongName_UpArrow"%string); (TK_LongName_RightArrow, "LongName_RightArrow"%string);
  (TK_LongName_DownArrow, "LongName_DownArrow"%string); (TK_LongName_LeftRightArrow, "LongName_LeftRightArrow"%string);
  (TK_LongName_UpDownArrow, "LongName_UpDownArrow"%string); (TK_LongName_UpperLeftArrow, "LongName_UpperLeftArrow"%string);
  (TK_LongName_UpperRightArrow, "LongName_UpperRightArrow"%string); (TK_LongName_LowerRightArrow, "LongName_LowerRightArrow"%string);
  (TK_LongName_LowerLeftArrow, "LongName_LowerLeftArrow"%string); (TK_LongName_LeftTeeArrow, "LongName_LeftTeeArrow"%string);
  (TK_LongName_UpTeeArrow, "LongName_UpTeeArrow"%string); (TK_LongName_RightTeeArrow, "LongName_RightTeeArrow"%string);
  (TK_LongName_DownTeeArrow, "LongName_DownTeeArrow"%string); (TK_LongName_LeftVector, "LongName_LeftVector"%string);
  (TK_LongName_DownLeftVector, "LongName_DownLeftVector"%string); (TK_LongName_RightUpVector, "LongName_RightUpVector"%string);
  (TK_LongName_LeftUpVector, "LongName_LeftUpVector"%string); (TK_LongName_RightVector, "LongName_RightVector"%string);
  (TK_LongName_DownRightVector, "LongName_DownRightVector"%string); (TK_LongName_RightDownVector, "LongName_RightDownVector"%string);
  (TK_LongName_LeftDownVector, "LongName_LeftDownVector"%string); (TK_LongName_RightArrowLeftArrow, "LongName_RightArrowLeftArrow"%string);
  (TK_LongName_UpArrowDownArrow, "LongName_UpArrowDownArrow"%string); (TK_LongName_LeftArrowRightArrow, "LongName_LeftArrowRightArrow"%string);
  (TK_LongName_ReverseEquilibrium, "LongName_ReverseEquilibrium"%string); (TK_LongName_Equilibrium, "LongName_Equilibrium"%string);
  (TK_LongName_DoubleLeftArrow, "LongName_DoubleLeftArrow"%string); (TK_LongName_DoubleUpArrow, "LongName_DoubleUpArrow"%string);
  (TK_LongName_DoubleRightArrow, "LongName_DoubleRightArrow"%string); (TK_LongName_DoubleDownArrow, "LongName_DoubleDownArrow"%string);
  (TK_LongName_DoubleLeftRightArrow, "LongName_DoubleLeftRightArrow"%string); (TK_LongName_DoubleUpDownArrow, "LongName_DoubleUpDownArrow"%string);
  (TK_LongName_LeftArrowBar, "LongName_LeftArrowBar"%string); (TK_LongName_RightArrowBar, "LongName_RightArrowBar"%string);
  (TK_LongName_DownArrowUpArrow, "LongName_DownArrowUpArrow"%string); (TK_LongName_ForAll, "LongName_ForAll"%string);
  (TK_LongName_PartialD, "LongName_PartialD"%string); (TK_LongName_Exists, "LongName_Exists"%string);
  (TK_LongName_NotExists, "LongName_NotExists"%string); (TK_LongName_Del, "LongName_Del"%string);
  (TK_LongName_Element, "LongName_Element"%string); (TK_LongName_NotElement, "LongName_NotElement"%string);
  (TK_LongName_ReverseElement, "LongName_ReverseElement"%string); (TK_LongName_NotReverseElement, "LongName_NotReverseElement"%string);
  (TK_LongName_SuchThat, "LongName_SuchThat"%string); (TK_LongName_Product, "LongName_Product"%string);
  (TK_LongName_Coproduct, "LongName_Coproduct"%string); (TK_LongName_Sum, "LongName_Sum"%string);
  (TK_LongName_Minus, "LongName_Minus"%string); (TK_LongName_MinusPlus, "LongName_MinusPlus"%string);
  (TK_LongName_DivisionSlash, "LongName_DivisionSlash"%string); (TK_LongName_Backslash, "LongName_Backslash"%string);
  (TK_LongName_SmallCircle, "LongName_SmallCircle"%string); (TK_LongName_Sqrt, "LongName_Sqrt"%string);
  (TK_LongName_CubeRoot, "LongName_CubeRoot"%string); (TK_LongName_Proportional, "LongName_Proportional"%string);
  (TK_LongName_Divides, "LongName_Divides"%string); (TK_LongName_DoubleVerticalBar, "LongName_DoubleVerticalBar"%string);
  (TK_LongName_NotDoubleVerticalBar, "LongName_NotDoubleVerticalBar"%string); (TK_LongName_And, "LongName_And"%string);
  (TK_LongName_Or, "LongName_Or"%string); (TK_LongName_Integral, "LongName_Integral"%string);
  (TK_LongName_ContourIntegral, "LongName_ContourIntegral"%string); (TK_LongName_DoubleContourIntegral, "LongName_DoubleContourIntegral"%string);
  (TK_LongName_ClockwiseContourIntegral, "LongName_ClockwiseContourIntegral"%string); (TK_LongName_CounterClockwiseContourIntegral, "LongName_CounterClockwiseContourIntegral"%string);
  (TK_LongName_Therefore, "LongName_Therefore"%string); (TK_LongName_Because, "LongName_Because"%string);
  (TK_LongName_Colon, "LongName_Colon"%string); (TK_LongName_Proportion, "LongName_Proportion"%string);
  (TK_LongName_Tilde, "LongName_Tilde"%string); (TK_LongName_VerticalTilde, "LongName_VerticalTilde"%string);
  (TK_LongName_NotTilde, "LongName_NotTilde"%string); (TK_LongName_EqualTilde, "LongName_EqualTilde"%string);
  (TK_LongName_TildeEqual, "LongName_TildeEqual"%string); (TK_LongName_NotTildeEqual, "LongName_NotTildeEqual"%string);
  (TK_LongName_TildeFullEqual, "LongName_TildeFullEqual"%string); (TK_LongName_NotTildeFullEqual, "LongName_NotTildeFullEqual"%string);
  (TK_LongName_TildeTilde, "LongName_TildeTilde"%string); (TK_LongName_NotTildeTilde, "LongName_NotTildeTilde"%string);
  (TK_LongName_CupCap, "LongName_CupCap"%string); (TK_LongName_HumpDownHump, "LongName_HumpDownHump"%string);
  (TK_LongName_HumpEqual, "LongName_HumpEqual"%string); (TK_LongName_DotEqual, "LongName_DotEqual"%string);
  (TK_LongName_NotEqual, "LongName_NotEqual"%string); (TK_LongName_Congruent, "LongName_Congruent"%string);
  (TK_LongName_NotCongruent, "LongName_NotCongruent"%string); (TK_LongName_LessEqual, "LongName_LessEqual"%string);
  (TK_LongName_GreaterEqual, "LongName_GreaterEqual"%string); (TK_LongName_LessFullEqual, "LongName_LessFullEqual"%string);
  (TK_LongName_GreaterFullEqual, "LongName_GreaterFullEqual"%string); (TK_LongName_NotLessFullEqual, "LongName_NotLessFullEqual"%string);
  (TK_LongName_NotGreaterFullEqual, "LongName_NotGreaterFullEqual"%string); (TK_LongName_LessLess, "LongName_LessLess"%string);
  (TK_LongName_GreaterGreater, "LongName_GreaterGreater"%string); (TK_LongName_NotCupCap, "LongName_NotCupCap"%string);
  (TK_LongName_NotLess, "LongName_NotLess"%string); (TK_LongName_NotGreater, "LongName_NotGreater"%string);
  (TK_LongName_NotLessEqual, "LongName_NotLessEqual"%string); (TK_LongName_NotGreaterEqual, "LongName_NotGreaterEqual"%string);
  (TK_LongName_LessTilde, "LongName_LessTilde"%string); (TK_LongName_GreaterTilde, "LongName_GreaterTilde"%string);
  (TK_LongName_NotLessTilde, "LongName_NotLessTilde"%string); (TK_LongName_NotGreaterTilde, "LongName_NotGreaterTilde"%string);
  (TK_LongName_LessGreater, "LongName_LessGreater"%string); (TK_LongName_GreaterLess, "LongName_GreaterLess"%string);
  (TK_LongName_NotLessGreater, "LongName_NotLessGreater"%string); (TK_LongName_NotGreaterLess, "LongName_NotGreaterLess"%string);
  (TK_LongName_Precedes, "LongName_Precedes"%string); (TK_LongName_Succeeds, "LongName_Succeeds"%string);
  (TK_LongName_PrecedesSlantEqual, "LongName_PrecedesSlantEqual"%string); (TK_LongName_SucceedsSlantEqual, "LongName_SucceedsSlantEqual"%string);
  (TK_LongName_PrecedesTilde, "LongName_PrecedesTilde"%string); (TK_LongName_SucceedsTilde, "LongName_SucceedsTilde"%string);
  (TK_LongName_NotPrecedes, "LongName_NotPrecedes"%string); (TK_LongName_NotSucceeds, "LongName_NotSucceeds"%string);
  (TK_LongName_Subset, "LongName_Subset"%string); (TK_LongName_Superset, "LongName_Superset"%string);
  (TK_LongName_NotSubset, "LongName_NotSubset"%string); (TK_LongName_NotSuperset, "LongName_NotSuperset"%string);
  (TK_LongName_SubsetEqual, "LongName_SubsetEqual"%string); (TK_LongName_SupersetEqual, "LongName_SupersetEqual"%string);
  (TK_LongName_NotSubsetEqual, "LongName_NotSubsetEqual"%string); (TK_LongName_NotSupersetEqual, "LongName_NotSupersetEqual"%string);
  (TK_LongName_UnionPlus, "LongName_UnionPlus"%string); (TK_LongName_SquareSubset, "LongName_SquareSubset"%string);
  (TK_LongName_SquareSuperset, "LongName_SquareSuperset"%string); (TK_LongName_SquareSubsetEqual, "LongName_SquareSubsetEqual"%string);
  (TK_LongName_SquareSupersetEqual, "LongName_SquareSupersetEqual"%string); (TK_LongName_SquareIntersection, "LongName_SquareIntersection"%string);
  (TK_LongName_SquareUnion, "LongName_SquareUnion"%string); (TK_LongName_CirclePlus, "LongName_CirclePlus"%string);
  (TK_LongName_CircleMinus, "LongName_CircleMinus"%string); (TK_LongName_CircleTimes, "LongName_CircleTimes"%string);
  (TK_LongName_CircleDot, "LongName_CircleDot"%string); (TK_LongName_RightTee, "LongName_RightTee"%string);
  (TK_LongName_LeftTee, "LongName_LeftTee"%string); (TK_LongName_DownTee, "LongName_DownTee"%string);
  (TK_LongName_UpTee, "LongName_UpTee"%string); (TK_LongName_DoubleRightTee, "LongName_DoubleRightTee"%string);
  (TK_LongName_LeftTriangle, "LongName_LeftTriangle"%string); (TK_LongName_RightTriangle, "LongName_RightTriangle"%string);
  (TK_LongName_LeftTriangleEqual, "LongName_LeftTriangleEqual"%string); (TK_LongName_RightTriangleEqual, "LongName_RightTriangleEqual"%string);
  (TK_LongName_Xor, "LongName_Xor"%string); (TK_LongName_Nand, "LongName_Nand"%string);
  (TK_LongName_Nor, "LongName_Nor"%string); (TK_LongName_Wedge, "LongName_Wedge"%string);
  (TK_LongName_Vee, "LongName_Vee"%string); (TK_LongName_Intersection, "LongName_Intersection"%string);
  (TK_LongName_Union, "LongName_Union"%string); (TK_LongName_Diamond, "LongName_Diamond"%string);
  (TK_LongName_Star, "LongName_Star"%string); (TK_LongName_LessEqualGreater, "LongName_LessEqualGreater"%string);
  (TK_LongName_GreaterEqualLess, "LongName_GreaterEqualLess"%string); (TK_LongName_NotPrecedesSlantEqual, "LongName_NotPrecedesSlantEqual"%string);
  (TK_LongName_NotSucceedsSlantEqual, "LongName_NotSucceedsSlantEqual"%string); (TK_LongName_NotSquareSubsetEqual, "LongName_NotSquareSubsetEqual"%string);
  (TK_LongName_NotSquareSupersetEqual, "LongName_NotSquareSupersetEqual"%string); (TK_LongName_NotPrecedesTilde, "LongName_NotPrecedesTilde"%string);
  (TK_LongName_NotSucceedsTilde, "LongName_NotSucceedsTilde"%string); (TK_LongName_NotLeftTriangle, "LongName_NotLeftTriangle"%string);
  (TK_LongName_NotRightTriangle, "LongName_NotRightTriangle"%string); (TK_LongName_NotLeftTriangleEqual, "LongName_NotLeftTriangleEqual"%string);
  (TK_LongName_NotRightTriangleEqual, "LongName_NotRightTriangleEqual"%string); (TK_LongName_LeftCeiling, "LongName_LeftCeiling"%string);
  (TK_LongName_RightCeiling, "LongName_RightCeiling"%string); (TK_LongName_LeftFloor, "LongName_LeftFloor"%string);
  (TK_LongName_RightFloor, "LongName_RightFloor"%string); (TK_LongName_Cap, "LongName_Cap"%string);
  (TK_LongName_Cup, "LongName_Cup"%string); (TK_LongName_LeftAngleBracket, "LongName_LeftAngleBracket"%string);
  (TK_LongName_RightAngleBracket, "LongName_RightAngleBracket"%string); (TK_LongName_Perpendicular, "LongName_Perpendicular"%string);
  (TK_LongName_LongLeftArrow, "LongName_LongLeftArrow"%string); (TK_LongName_LongRightArrow, "LongName_LongRightArrow"%string);
  (TK_LongName_LongLeftRightArrow, "LongName_LongLeftRightArrow"%string); (TK_LongName_DoubleLongLeftArrow, "LongName_DoubleLongLeftArrow"%string);
  (TK_LongName_DoubleLongRightArrow, "LongName_DoubleLongRightArrow"%string); (TK_LongName_DoubleLongLeftRightArrow, "LongName_DoubleLongLeftRightArrow"%string);
  (TK_LongName_UpArrowBar, "LongName_UpArrowBar"%string); (TK_LongName_DownArrowBar, "LongName_DownArrowBar"%string);
  (TK_LongName_LeftRightVector, "LongName_LeftRightVector"%string); (TK_LongName_RightUpDownVector, "LongName_RightUpDownVector"%string);
  (TK_LongName_DownLeftRightVector, "LongName_DownLeftRightVector"%string); (TK_LongName_LeftUpDownVector, "LongName_LeftUpDownVector"%string);
  (TK_LongName_LeftVectorBar, "LongName_LeftVectorBar"%string); (TK_LongName_RightVectorBar, "LongName_RightVectorBar"%string);
  (TK_LongName_RightUpVectorBar, "LongName_RightUpVectorBar"%string); (TK_LongName_RightDownVectorBar, "LongName_RightDownVectorBar"%string);
  (TK_LongName_DownLeftVectorBar, "LongName_DownLeftVectorBar"%string); (TK_LongName_DownRightVectorBar, "LongName_DownRightVectorBar"%string);
  (TK_LongName_LeftUpVectorBar, "LongName_LeftUpVectorBar"%string); (TK_LongName_LeftDownVectorBar, "LongName_LeftDownVectorBar"%string);
  (TK_LongName_LeftTeeVector, "LongName_LeftTeeVector"%string); (TK_LongName_RightTeeVector, "LongName_RightTeeVector"%string);
  (TK_LongName_RightUpTeeVector, "LongName_RightUpTeeVector"%string); (TK_LongName_RightDownTeeVector, "LongName_RightDownTeeVector"%string);
  (TK_LongName_DownLeftTeeVector, "LongName_DownLeftTeeVector"%string); (TK_LongName_DownRightTeeVector, "LongName_DownRightTeeVector"%string);
  (TK_LongName_LeftUpTeeVector, "LongName_LeftUpTeeVector"%string); (TK_LongName_LeftDownTeeVector, "LongName_LeftDownTeeVector"%string);
  (TK_LongName_UpEquilibrium, "LongName_UpEquilibrium"%string); (TK_LongName_ReverseUpEquilibrium, "LongName_ReverseUpEquilibrium"%string);
  (TK_LongName_RoundImplies, "LongName_RoundImplies"%string); (TK_LongName_LeftTriangleBar, "LongName_LeftTriangleBar"%string);
  (TK_LongName_RightTriangleBar, "LongName_RightTriangleBar"%string); (TK_LongName_Equivalent, "LongName_Equivalent"%string);
  (TK_LongName_LessSlantEqual, "LongName_LessSlantEqual"%string); (TK_LongName_GreaterSlantEqual, "LongName_GreaterSlantEqual"%string);
  (TK_LongName_NestedLessLess, "LongName_NestedLessLess"%string); (TK_LongName_NestedGreaterGreater, "LongName_NestedGreaterGreater"%string);
  (TK_LongName_PrecedesEqual, "LongName_PrecedesEqual"%string); (TK_LongName_SucceedsEqual, "LongName_SucceedsEqual"%string);
  (TK_LongName_DoubleLeftTee, "LongName_DoubleLeftTee"%string); (TK_LongName_LeftDoubleBracket, "LongName_LeftDoubleBracket"%string);
  (TK_LongName_RightDoubleBracket, "LongName_RightDoubleBracket"%string); (TK_LongName_LeftAssociation, "LongName_LeftAssociation"%string);
  (TK_LongName_RightAssociation, "LongName_RightAssociation"%string); (TK_LongName_TwoWayRule, "LongName_TwoWayRule"%string);
  (TK_LongName_Piecewise, "LongName_Piecewise"%string); (TK_LongName_ImplicitPlus, "LongName_ImplicitPlus"%string);
  (TK_LongName_AutoLeftMatch, "LongName_AutoLeftMatch"%string); (TK_LongName_AutoRightMatch, "LongName_AutoRightMatch"%string);
  (TK_LongName_InvisiblePrefixScriptBase, "LongName_InvisiblePrefixScriptBase"%string); (TK_LongName_InvisiblePostfixScriptBase, "LongName_InvisiblePostfixScriptBase"%string);
  (TK_LongName_Transpose, "LongName_Transpose"%string); (TK_LongName_Conjugate, "LongName_Conjugate"%string);
  (TK_LongName_ConjugateTranspose, "LongName_ConjugateTranspose"%string); (TK_LongName_HermitianConjugate, "LongName_HermitianConjugate"%string);
  (TK_LongName_VerticalBar, "LongName_VerticalBar"%string); (TK_LongName_NotVerticalBar, "LongName_NotVerticalBar"%string);
  (TK_LongName_Distributed, "LongName_Distributed"%string); (TK_LongName_Conditioned, "LongName_Conditioned"%string);
  (TK_LongName_UndirectedEdge, "LongName_UndirectedEdge"%string); (TK_LongName_DirectedEdge, "LongName_DirectedEdge"%string);
  (TK_LongName_ContinuedFractionK, "LongName_ContinuedFractionK"%string); (TK_LongName_TensorProduct, "LongName_TensorProduct"%string);
  (TK_LongName_TensorWedge, "LongName_TensorWedge"%string); (TK_LongName_ProbabilityPr, "LongName_ProbabilityPr"%string);
  (TK_LongName_ExpectationE, "LongName_ExpectationE"%string); (TK_LongName_PermutationProduct, "LongName_PermutationProduct"%string);
  (TK_LongName_NotEqualTilde, "LongName_NotEqualTilde"%string); (TK_LongName_NotHumpEqual, "LongName_NotHumpEqual"%string);
  (TK_LongName_NotHumpDownHump, "LongName_NotHumpDownHump"%string); (TK_LongName_NotLeftTriangleBar, "LongName_NotLeftTriangleBar"%string);
  (TK_LongName_NotRightTriangleBar, "LongName_NotRightTriangleBar"%string); (TK_LongName_NotLessLess, "LongName_NotLessLess"%string);
  (TK_LongName_NotNestedLessLess, "LongName_NotNestedLessLess"%string); (TK_LongName_NotLessSlantEqual, "LongName_NotLessSlantEqual"%string);
  (TK_LongName_NotGreaterGreater, "LongName_NotGreaterGreater"%string); (TK_LongName_NotNestedGreaterGreater, "LongName_NotNestedGreaterGreater"%string);
  (TK_LongName_NotGreaterSlantEqual, "LongName_NotGreaterSlantEqual"%string); (TK_LongName_NotPrecedesEqual, "LongName_NotPrecedesEqual"%string);
  (TK_LongName_NotSucceedsEqual, "LongName_NotSucceedsEqual"%string); (TK_LongName_NotSquareSubset, "LongName_NotSquareSubset"%string);
  (TK_LongName_NotSquareSuperset, "LongName_NotSquareSuperset"%string); (TK_LongName_Equal, "LongName_Equal"%string);
  (TK_LongName_VerticalSeparator, "LongName_VerticalSeparator"%string); (TK_LongName_VectorGreater, "LongName_VectorGreater"%string);
  (TK_LongName_VectorGreaterEqual, "LongName_VectorGreaterEqual"%string); (TK_LongName_VectorLess, "LongName_VectorLess"%string);
  (TK_LongName_VectorLessEqual, "LongName_VectorLessEqual"%string); (TK_LongName_Limit, "LongName_Limit"%string);
  (TK_LongName_MaxLimit, "LongName_MaxLimit"%string); (TK_LongName_MinLimit, "LongName_MinLimit"%string);
  (TK_LongName_Cross, "LongName_Cross"%string); (TK_LongName_Function, "LongName_Function"%string);
  (TK_LongName_Xnor, "LongName_Xnor"%string); (TK_LongName_DiscreteShift, "LongName_DiscreteShift"%string);
  (TK_LongName_DifferenceDelta, "LongName_DifferenceDelta"%string); (TK_LongName_DiscreteRatio, "LongName_DiscreteRatio"%string);
  (TK_LongName_RuleDelayed, "LongName_RuleDelayed"%string); (TK_LongName_Square, "LongName_Square"%string);
  (TK_LongName_Rule, "LongName_Rule"%string); (TK_LongName_Implies, "LongName_Implies"%string);
  (TK_LongName_ShortRightArrow, "LongName_ShortRightArrow"%string); (TK_LongName_ShortLeftArrow, "LongName_ShortLeftArrow"%string);
  (TK_LongName_ShortUpArrow, "LongName_ShortUpArrow"%string); (TK_LongName_ShortDownArrow, "LongName_ShortDownArrow"%string);
  (TK_LongName_Application, "LongName_Application"%string); (TK_LongName_LeftBracketingBar, "LongName_LeftBracketingBar"%string);
  (TK_LongName_RightBracketingBar, "LongName_RightBracketingBar"%string); (TK_LongName_LeftDoubleBracketingBar, "LongName_LeftDoubleBracketingBar"%string);
  (TK_LongName_RightDoubleBracketingBar, "LongName_RightDoubleBracketingBar"%string); (TK_LongName_CapitalDifferentialD, "LongName_CapitalDifferentialD"%string);
  (TK_LongName_DifferentialD, "LongName_DifferentialD"%string); (TK_LongName_InvisibleComma, "LongName_InvisibleComma"%string);
  (TK_LongName_InvisibleApplication, "LongName_InvisibleApplication"%string); (TK_LongName_LongEqual, "LongName_LongEqual"%string)
].

(** token_kind.rs const POSSIBLE_BEGINNING (names) *)
Definition POSSIBLE_BEGINNING_names : list string := [
  "Symbol"%string; "String"%string; "Integer"%string; "Real"%string;
  "Rational"%string; "LinearSyntaxBlob"%string; "Percent"%string; "PercentPercent"%string;
  "Hash"%string; "HashHash"%string; "Under"%string; "UnderUnder"%string;
  "UnderUnderUnder"%string; "UnderDot"%string; "SemiSemi"%string; "Bang"%string;
  "Minus"%string; "Plus"%string; "LessLess"%string; "MinusMinus"%string;
  "PlusPlus"%string; "BangBang"%string; "OpenParen"%string; "OpenCurly"%string;
  "LessBar"%string; "LongName_LeftCeiling"%string; "LongName_LeftFloor"%string; "LongName_LeftAngleBracket"%string;
  "LongName_LeftBracketingBar"%string; "LongName_LeftDoubleBracketingBar"%string; "LongName_LeftAssociation"%string; "LongName_OpenCurlyQuote"%string;
  "LongName_OpenCurlyDoubleQuote"%string; "LinearSyntax_Bang"%string; "LongName_Integral"%string; "LongName_ContourIntegral"%string;
  "LongName_DoubleContourIntegral"%string; "LongName_ClockwiseContourIntegral"%string; "LongName_CounterClockwiseContourIntegral"%string; "LongName_Not"%string;
  "LongName_PlusMinus"%string; "LongName_Sum"%string; "LongName_ForAll"%string; "LongName_Exists"%string;
  "LongName_NotExists"%string; "LongName_Del"%string; "LongName_Product"%string; "LongName_Coproduct"%string;
  "LongName_Minus"%string; "LongName_MinusPlus"%string; "LongName_Sqrt"%string; "LongName_CubeRoot"%string;
  "LongName_CircleTimes"%string; "LongName_Piecewise"%string; "LongName_InvisiblePrefixScriptBase"%string; "LongName_ContinuedFractionK"%string;
  "LongName_ProbabilityPr"%string; "LongName_ExpectationE"%string; "LongName_CapitalDifferentialD"%string; "LongName_DifferentialD"%string;
  "LongName_Square"%string
].

(** token_kind.rs const EMPTY (names) *)
Definition EMPTY_names : list string := [
  "EndOfFile"%string; "Fake_ImplicitTimes"%string; "Error_Aborted"%string; "Fake_ImplicitNull"%string;
  "Fake_ImplicitOne"%string; "Fake_ImplicitAll"%string; "Error_ExpectedOperand"%string; "Error_ExpectedTag"%string;
  "Error_ExpectedFile"%string; "Error_PrefixImplicitNull"%string; "Error_InfixImplicitNull"%string
].

(** token_kind.rs const UNTERMINATED (names) *)
Definition UNTERMINATED_names : list string := [
  "Error_UnterminatedComment"%string; "Error_UnterminatedString"%string; "Error_UnterminatedFileString"%string; "Error_UnterminatedLinearSyntaxBlob"%string
].

(** token_kind.rs const CLOSERS (names) *)
Definition CLOSERS_names : list string := [
  "BarGreater"%string; "CloseCurly"%string; "CloseParen"%string; "CloseSquare"%string;
  "LongName_CloseCurlyDoubleQuote"%string; "LongName_CloseCurlyQuote"%string; "LongName_RightAngleBracket"%string; "LongName_RightAssociation"%string;
  "LongName_RightBracketingBar"%string; "LongName_RightCeiling"%string; "LongName_RightDoubleBracket"%string; "LongName_RightDoubleBracketingBar"%string;
  "LongName_RightFloor"%string
].

(** token_kind.rs const ERROR (names) *)
Definition ERROR_names : list string := [
  "Error_ExpectedEqual"%string; "Error_Number"%string; "Error_UnhandledCharacter"%string; "Error_ExpectedLetterlike"%string;
  "Error_Aborted"%string; "Error_ExpectedOperand"%string; "Error_ExpectedTag"%string; "Error_ExpectedFile"%string;
  "Error_UnsupportedToken"%string; "Error_UnexpectedCloser"%string; "Error_UnterminatedComment"%string; "Error_UnterminatedString"%string;
  "Error_UnterminatedFileString"%string; "Error_UnterminatedLinearSyntaxBlob"%string; "Error_PrefixImplicitNull"%string; "Error_InfixImplicitNull"%string;
  "Error_UnsafeCharacterEncoding"%string; "Error_UnexpectedCommentCloser"%string
].

