(** GENERATED by tools/gen_tables.py from /repo/crates/wolfram-parser/src/tokenize/token_kind.rs, symbols.rs, parse/operators.rs.  Do not edit. *)
From Coq Require Import ZArith List String.
From Verif Require Import GenTokenKind GenOps.
Import ListNotations.
Local Open Scope Z_scope.

(** token_to_symbol! (token_kind.rs 303-331) resolved through symbols.rs, variants in declaration order *)
Definition KIND_SYMBOL : list (Z * string) := [
  (TK_Unknown, "Token`Unknown"%string); (TK_EndOfFile, "System`EndOfFile"%string);
  (TK_Symbol, "System`Symbol"%string); (TK_String, "System`String"%string);
  (TK_Integer, "System`Integer"%string); (TK_Real, "System`Real"%string);
  (TK_Rational, "System`Rational"%string); (TK_LinearSyntaxBlob, "Token`LinearSyntaxBlob"%string);
  (TK_InternalNewline, "Token`Newline"%string); (TK_Comment, "Token`Comment"%string);
  (TK_Whitespace, "System`Whitespace"%string); (TK_Buffer1, "Token`Buffer1"%string);
  (TK_ToplevelNewline, "Token`Newline"%string); (TK_Buffer2, "Token`Buffer2"%string);
  (TK_Buffer3, "Token`Buffer3"%string); (TK_Buffer4, "Token`Buffer4"%string);
  (TK_Error_ExpectedEqual, "Token`Error`ExpectedEqual"%string); (TK_Error_Number, "Token`Error`Number"%string);
  (TK_Error_UnhandledCharacter, "Token`Error`UnhandledCharacter"%string); (TK_Error_ExpectedLetterlike, "Token`Error`ExpectedLetterlike"%string);
  (TK_Error_Aborted, "Token`Error`Aborted"%string); (TK_Error_ExpectedOperand, "Token`Error`ExpectedOperand"%string);
  (TK_Error_ExpectedTag, "Token`Error`ExpectedTag"%string); (TK_Error_ExpectedFile, "Token`Error`ExpectedFile"%string);
  (TK_Error_UnexpectedCloser, "Token`Error`UnexpectedCloser"%string); (TK_Error_PrefixImplicitNull, "Token`Error`PrefixImplicitNull"%string);
  (TK_Error_InfixImplicitNull, "Token`Error`InfixImplicitNull"%string); (TK_Error_UnsafeCharacterEncoding, "Token`Error`UnsafeCharacterEncoding"%string);
  (TK_Error_UnterminatedComment, "Token`Error`UnterminatedComment"%string); (TK_Error_UnterminatedString, "Token`Error`UnterminatedString"%string);
  (TK_Error_UnterminatedFileString, "Token`Error`UnterminatedFileString"%string); (TK_Error_UnterminatedLinearSyntaxBlob, "Token`Error`UnterminatedLinearSyntaxBlob"%string);
  (TK_Error_UnsupportedToken, "Token`Error`UnsupportedToken"%string); (TK_Error_UnexpectedCommentCloser, "Token`Error`UnexpectedCommentCloser"%string);
  (TK_Dot, "Token`Dot"%string); (TK_Colon, "Token`Colon"%string);
  (TK_OpenParen, "Token`OpenParen"%string); (TK_CloseParen, "Token`CloseParen"%string);
  (TK_OpenSquare, "Token`OpenSquare"%string); (TK_CloseSquare, "Token`CloseSquare"%string);
  (TK_Comma, "Token`Comma"%string); (TK_OpenCurly, "Token`OpenCurly"%string);
  (TK_CloseCurly, "Token`CloseCurly"%string); (TK_Equal, "Token`Equal"%string);
  (TK_Bang, "Token`Bang"%string); (TK_Under, "Token`Under"%string);
  (TK_Less, "Token`Less"%string); (TK_Greater, "Token`Greater"%string);
  (TK_Minus, "Token`Minus"%string); (TK_Bar, "Token`Bar"%string);
  (TK_Semi, "Token`Semi"%string); (TK_Hash, "Token`Hash"%string);
  (TK_Amp, "Token`Amp"%string); (TK_Slash, "Token`Slash"%string);
  (TK_At, "Token`At"%string); (TK_Plus, "Token`Plus"%string);
  (TK_Tilde, "Token`Tilde"%string); (TK_Star, "Token`Star"%string);
  (TK_Caret, "Token`Caret"%string); (TK_SingleQuote, "Token`SingleQuote"%string);
  (TK_Percent, "Token`Percent"%string); (TK_Question, "Token`Question"%string);
  (TK_DotDot, "Token`DotDot"%string); (TK_ColonColon, "Token`ColonColon"%string);
  (TK_ColonEqual, "Token`ColonEqual"%string); (TK_ColonGreater, "Token`ColonGreater"%string);
  (TK_EqualEqual, "Token`EqualEqual"%string); (TK_UnderUnder, "Token`UnderUnder"%string);
  (TK_UnderDot, "Token`UnderDot"%string); (TK_LessBar, "Token`LessBar"%string);
  (TK_LessLess, "Token`LessLess"%string); (TK_LessGreater, "Token`LessGreater"%string);
  (TK_LessEqual, "Token`LessEqual"%string); (TK_GreaterGreater, "Token`GreaterGreater"%string);
  (TK_GreaterEqual, "Token`GreaterEqual"%string); (TK_MinusGreater, "Token`MinusGreater"%string);
  (TK_MinusMinus, "Token`MinusMinus"%string); (TK_MinusEqual, "Token`MinusEqual"%string);
  (TK_BarBar, "Token`BarBar"%string); (TK_BarGreater, "Token`BarGreater"%string);
  (TK_SemiSemi, "Token`SemiSemi"%string); (TK_AmpAmp, "Token`AmpAmp"%string);
  (TK_SlashAt, "Token`SlashAt"%string); (TK_SlashSemi, "Token`SlashSemi"%string);
  (TK_SlashDot, "Token`SlashDot"%string); (TK_SlashSlash, "Token`SlashSlash"%string);
  (TK_SlashColon, "Token`SlashColon"%string); (TK_SlashEqual, "Token`SlashEqual"%string);
  (TK_SlashStar, "Token`SlashStar"%string); (TK_AtAt, "Token`AtAt"%string);
  (TK_AtStar, "Token`AtStar"%string); (TK_PlusPlus, "Token`PlusPlus"%string);
  (TK_PlusEqual, "Token`PlusEqual"%string); (TK_TildeTilde, "Token`TildeTilde"%string);
  (TK_StarEqual, "Token`StarEqual"%string); (TK_StarStar, "Token`StarStar"%string);
  (TK_CaretEqual, "Token`CaretEqual"%string); (TK_HashHash, "Token`HashHash"%string);
  (TK_BangEqual, "Token`BangEqual"%string); (TK_BangBang, "Token`BangBang"%string);
  (TK_QuestionQuestion, "Token`QuestionQuestion"%string); (TK_DotDotDot, "Token`DotDotDot"%string);
  (TK_EqualEqualEqual, "Token`EqualEqualEqual"%string); (TK_EqualBangEqual, "Token`EqualBangEqual"%string);
  (TK_UnderUnderUnder, "Token`UnderUnderUnder"%string); (TK_SlashSlashDot, "Token`SlashSlashDot"%string);
  (TK_AtAtAt, "Token`AtAtAt"%string); (TK_LessMinusGreater, "Token`LessMinusGreater"%string);
  (TK_SlashSlashAt, "Token`SlashSlashAt"%string); (TK_CaretColonEqual, "Token`CaretColonEqual"%string);
  (TK_GreaterGreaterGreater, "Token`GreaterGreaterGreater"%string); (TK_BarMinusGreater, "Token`BarMinusGreater"%string);
  (TK_SlashSlashEqual, "Token`SlashSlashEqual"%string); (TK_ColonColonOpenSquare, "Token`ColonColonOpenSquare"%string);
  (TK_PercentPercent, "Token`PercentPercent"%string); (TK_LinearSyntax_Bang, "Token`LinearSyntax`Bang"%string);
  (TK_LinearSyntax_CloseParen, "Token`LinearSyntax`CloseParen"%string); (TK_LinearSyntax_At, "Token`LinearSyntax`At"%string);
  (TK_LinearSyntax_Amp, "Token`LinearSyntax`Amp"%string); (TK_LinearSyntax_Star, "Token`LinearSyntax`Star"%string);
  (TK_LinearSyntax_Under, "Token`LinearSyntax`Under"%string); (TK_LinearSyntax_Caret, "Token`LinearSyntax`Caret"%string);
  (TK_LinearSyntax_Space, "Token`LinearSyntax`Space"%string); (TK_LinearSyntax_Percent, "Token`LinearSyntax`Percent"%string);
  (TK_LinearSyntax_Plus, "Token`LinearSyntax`Plus"%string); (TK_LinearSyntax_Slash, "Token`LinearSyntax`Slash"%string);
  (TK_LinearSyntax_BackTick, "Token`LinearSyntax`BackTick"%string); (TK_Fake_ImplicitTimes, "Token`Fake`ImplicitTimes"%string);
  (TK_Fake_ImplicitNull, "Token`Fake`ImplicitNull"%string); (TK_Fake_ImplicitOne, "Token`Fake`ImplicitOne"%string);
  (TK_Fake_ImplicitAll, "Token`Fake`ImplicitAll"%string); (TK_Boxes_OpenParenStar, "Token`Boxes`OpenParenStar"%string);
  (TK_Boxes_StarCloseParen, "Token`Boxes`StarCloseParen"%string); (TK_Boxes_MultiSingleQuote, "Token`Boxes`MultiSingleQuote"%string);
  (TK_Boxes_MultiWhitespace, "Token`Boxes`MultiWhitespace"%string); (TK_LongName_Not, "Token`LongName`Not"%string);
  (TK_LongName_PlusMinus, "Token`LongName`PlusMinus"%string); (TK_LongName_CenterDot, "Token`LongName`CenterDot"%string);
  (TK_LongName_Times, "Token`LongName`Times"%string); (TK_LongName_Divide, "Token`LongName`Divide"%string);
  (TK_LongName_OpenCurlyQuote, "Token`LongName`OpenCurlyQuote"%string); (TK_LongName_CloseCurlyQuote, "Token`LongName`CloseCurlyQuote"%string);
  (TK_LongName_OpenCurlyDoubleQuote, "Token`LongName`OpenCurlyDoubleQuote"%string); (TK_LongName_CloseCurlyDoubleQuote, "Token`LongName`CloseCurlyDoubleQuote"%string);
  (TK_LongName_InvisibleTimes, "Token`LongName`InvisibleTimes"%string); (TK_LongName_LeftArrow, "Token`LongName`LeftArrow"%string);
  (TK_LongName_UpArrow, "Token`LongName`UpArrow"%string); (TK_LongName_RightArrow, "Token`LongName`RightArrow"%string);
  (TK_LongName_DownArrow, "Token`LongName`DownArrow"%string); (TK_LongName_LeftRightArrow, "Token`LongName`LeftRightArrow"%string);
  (TK_LongName_UpDownArrow, "Token`LongName`UpDownArrow"%string); (TK_LongName_UpperLeftArrow, "Token`LongName`UpperLeftArrow"%string);
  (TK_LongName_UpperRightArrow, "Token`LongName`UpperRightArrow"%string); (TK_LongName_LowerRightArrow, "Token`LongName`LowerRightArrow"%string);
  (TK_LongName_LowerLeftArrow, "Token`LongName`LowerLeftArrow"%string); (TK_LongName_LeftTeeArrow, "Token`LongName`LeftTeeArrow"%string);
  (TK_LongName_UpTeeArrow, "Token`LongName`UpTeeArrow"%string); (TK_LongName_RightTeeArrow, "Token`LongName`RightTeeArrow"%string);
  (TK_LongName_DownTeeArrow, "Token`LongName`DownTeeArrow"%string); (TK_LongName_LeftVector, "Token`LongName`LeftVector"%string);
  (TK_LongName_DownLeftVector, "Token`LongName`DownLeftVector"%string); (TK_LongName_RightUpVector, "Token`LongName`RightUpVector"%string);
  (TK_LongName_LeftUpVector, "Token`LongName`LeftUpVector"%string); (TK_LongName_RightVector, "Token`LongName`RightVector"%string);
  (TK_LongName_DownRightVector, "Token`LongName`DownRightVector"%string); (TK_LongName_RightDownVector, "Token`LongName`RightDownVector"%string);
  (TK_LongName_LeftDownVector, "Token`LongName`LeftDownVector"%string); (TK_LongName_RightArrowLeftArrow, "Token`LongName`RightArrowLeftArrow"%string);
  (TK_LongName_UpArrowDownArrow, "Token`LongName`UpArrowDownArrow"%string); (TK_LongName_LeftArrowRightArrow, "Token`LongName`LeftArrowRightArrow"%string);
  (TK_LongName_ReverseEquilibrium, "Token`LongName`ReverseEquilibrium"%string); (TK_LongName_Equilibrium, "Token`LongName`Equilibrium"%string);
  (TK_LongName_DoubleLeftArrow, "Token`LongName`DoubleLeftArrow"%string); (TK_LongName_DoubleUpArrow, "Token`LongName`DoubleUpArrow"%string);
  (TK_LongName_DoubleRightArrow, "Token`LongName`DoubleRightArrow"%string); (TK_LongName_DoubleDownArrow, "Token`LongName`DoubleDownArrow"%string);
  (TK_LongName_DoubleLeftRightArrow, "Token`LongName`DoubleLeftRightArrow"%string); (TK_LongName_DoubleUpDownArrow, "Token`LongName`DoubleUpDownArrow"%string);
  (TK_LongName_LeftArrowBar, "Token`LongName`LeftArrowBar"%string); (TK_LongName_RightArrowBar, "Token`LongName`RightArrowBar"%string);
  (TK_LongName_DownArrowUpArrow, "Token`LongName`DownArrowUpArrow"%string); (TK_LongName_ForAll, "Token`LongName`ForAll"%string);
  (TK_LongName_PartialD, "Token`LongName`PartialD"%string); (TK_LongName_Exists, "Token`LongName`Exists"%string);
  (TK_LongName_NotExists, "Token`LongName`NotExists"%string); (TK_LongName_Del, "Token`LongName`Del"%string);
  (TK_LongName_Element, "Token`LongName`Element"%string); (TK_LongName_NotElement, "Token`LongName`NotElement"%string);
  (TK_LongName_ReverseElement, "Token`LongName`ReverseElement"%string); (TK_LongName_NotReverseElement, "Token`LongName`NotReverseElement"%string);
  (TK_LongName_SuchThat, "Token`LongName`SuchThat"%string); (TK_LongName_Product, "Token`LongName`Product"%string);
  (TK_LongName_Coproduct, "Token`LongName`Coproduct"%string); (TK_LongName_Sum, "Token`LongName`Sum"%string);
  (TK_LongName_Minus, "Token`LongName`Minus"%string); (TK_LongName_MinusPlus, "Token`LongName`MinusPlus"%string);
  (TK_LongName_DivisionSlash, "Token`LongName`DivisionSlash"%string); (TK_LongName_Backslash, "Token`LongName`Backslash"%string);
  (TK_LongName_SmallCircle, "Token`LongName`SmallCircle"%string); (TK_LongName_Sqrt, "Token`LongName`Sqrt"%string);
  (TK_LongName_CubeRoot, "Token`LongName`CubeRoot"%string); (TK_LongName_Proportional, "Token`LongName`Proportional"%string);
  (TK_LongName_Divides, "Token`LongName`Divides"%string); (TK_LongName_DoubleVerticalBar, "Token`LongName`DoubleVerticalBar"%string);
  (TK_LongName_NotDoubleVerticalBar, "Token`LongName`NotDoubleVerticalBar"%string); (TK_LongName_And, "Token`LongName`And"%string);
  (TK_LongName_Or, "Token`LongName`Or"%string); (TK_LongName_Integral, "Token`LongName`Integral"%string);
  (TK_LongName_ContourIntegral, "Token`LongName`ContourIntegral"%string); (TK_LongName_DoubleContourIntegral, "Token`LongName`DoubleContourIntegral"%string);
  (TK_LongName_ClockwiseContourIntegral, "Token`LongName`ClockwiseContourIntegral"%string); (TK_LongName_CounterClockwiseContourIntegral, "Token`LongName`CounterClockwiseContourIntegral"%string);
  (TK_LongName_Therefore, "Token`LongName`Therefore"%string); (TK_LongName_Because, "Token`LongName`Because"%string);
  (TK_LongName_Colon, "Token`LongName`Colon"%string); (TK_LongName_Proportion, "Token`LongName`Proportion"%string);
  (TK_LongName_Tilde, "Token`LongName`Tilde"%string); (TK_LongName_VerticalTilde, "Token`LongName`VerticalTilde"%string);
  (TK_LongName_NotTilde, "Token`LongName`NotTilde"%string); (TK_LongName_EqualTilde, "Token`LongName`EqualTilde"%string);
  (TK_LongName_TildeEqual, "Token`LongName`TildeEqual"%string); (TK_LongName_NotTildeEqual, "Token`LongName`NotTildeEqual"%string);
  (TK_LongName_TildeFullEqual, "Token`LongName`TildeFullEqual"%string); (TK_LongName_NotTildeFullEqual, "Token`LongName`NotTildeFullEqual"%string);
  (TK_LongName_TildeTilde, "Token`LongName`TildeTilde"%string); (TK_LongName_NotTildeTilde, "Token`LongName`NotTildeTilde"%string);
  (TK_LongName_CupCap, "Token`LongName`CupCap"%string); (TK_LongName_HumpDownHump, "Token`LongName`HumpDownHump"%string);
  (TK_LongName_HumpEqual, "Token`LongName`HumpEqual"%string); (TK_LongName_DotEqual, "Token`LongName`DotEqual"%string);
  (TK_LongName_NotEqual, "Token`LongName`NotEqual"%string); (TK_LongName_Congruent, "Token`LongName`Congruent"%string);
  (TK_LongName_NotCongruent, "Token`LongName`NotCongruent"%string); (TK_LongName_LessEqual, "Token`LongName`LessEqual"%string);
  (TK_LongName_GreaterEqual, "Token`LongName`GreaterEqual"%string); (TK_LongName_LessFullEqual, "Token`LongName`LessFullEqual"%string);
  (TK_LongName_GreaterFullEqual, "Token`LongName`GreaterFullEqual"%string); (TK_LongName_NotLessFullEqual, "Token`LongName`NotLessFullEqual"%string);
  (TK_LongName_NotGreaterFullEqual, "Token`LongName`NotGreaterFullEqual"%string); (TK_LongName_LessLess, "Token`LongName`LessLess"%string);
  (TK_LongName_GreaterGreater, "Token`LongName`GreaterGreater"%string); (TK_LongName_NotCupCap, "Token`LongName`NotCupCap"%string);
  (TK_LongName_NotLess, "Token`LongName`NotLess"%string); (TK_LongName_NotGreater, "Token`LongName`NotGreater"%string);
  (TK_LongName_NotLessEqual, "Token`LongName`NotLessEqual"%string); (TK_LongName_NotGreaterEqual, "Token`LongName`NotGreaterEqual"%string);
  (TK_LongName_LessTilde, "Token`LongName`LessTilde"%string); (TK_LongName_GreaterTilde, "Token`LongName`GreaterTilde"%string);
  (TK_LongName_NotLessTilde, "Token`LongName`NotLessTilde"%string); (TK_LongName_NotGreaterTilde, "Token`LongName`NotGreaterTilde"%string);
  (TK_LongName_LessGreater, "Token`LongName`LessGreater"%string); (TK_LongName_GreaterLess, "Token`LongName`GreaterLess"%string);
  (TK_LongName_NotLessGreater, "Token`LongName`NotLessGreater"%string); (TK_LongName_NotGreaterLess, "Token`LongName`NotGreaterLess"%string);
  (TK_LongName_Precedes, "Token`LongName`Precedes"%string); (TK_LongName_Succeeds, "Token`LongName`Succeeds"%string);
  (TK_LongName_PrecedesSlantEqual, "Token`LongName`PrecedesSlantEqual"%string); (TK_LongName_SucceedsSlantEqual, "Token`LongName`SucceedsSlantEqual"%string);
  (TK_LongName_PrecedesTilde, "Token`LongName`PrecedesTilde"%string); (TK_LongName_SucceedsTilde, "Token`LongName`SucceedsTilde"%string);
  (TK_LongName_NotPrecedes, "Token`LongName`NotPrecedes"%string); (TK_LongName_NotSucceeds, "Token`LongName`NotSucceeds"%string);
  (TK_LongName_Subset, "Token`LongName`Subset"%string); (TK_LongName_Superset, "Token`LongName`Superset"%string);
  (TK_LongName_NotSubset, "Token`LongName`NotSubset"%string); (TK_LongName_NotSuperset, "Token`LongName`NotSuperset"%string);
  (TK_LongName_SubsetEqual, "Token`LongName`SubsetEqual"%string); (TK_LongName_SupersetEqual, "Token`LongName`SupersetEqual"%string);
  (TK_LongName_NotSubsetEqual, "Token`LongName`NotSubsetEqual"%string); (TK_LongName_NotSupersetEqual, "Token`LongName`NotSupersetEqual"%string);
  (TK_LongName_UnionPlus, "Token`LongName`UnionPlus"%string); (TK_LongName_SquareSubset, "Token`LongName`SquareSubset"%string);
  (TK_LongName_SquareSuperset, "Token`LongName`SquareSuperset"%string); (TK_LongName_SquareSubsetEqual, "Token`LongName`SquareSubsetEqual"%string);
  (TK_LongName_SquareSupersetEqual, "Token`LongName`SquareSupersetEqual"%string); (TK_LongName_SquareIntersection, "Token`LongName`SquareIntersection"%string);
  (TK_LongName_SquareUnion, "Token`LongName`SquareUnion"%string); (TK_LongName_CirclePlus, "Token`LongName`CirclePlus"%string);
  (TK_LongName_CircleMinus, "Token`LongName`CircleMinus"%string); (TK_LongName_CircleTimes, "Token`LongName`CircleTimes"%string);
  (TK_LongName_CircleDot, "Token`LongName`CircleDot"%string); (TK_LongName_RightTee, "Token`LongName`RightTee"%string);
  (TK_LongName_LeftTee, "Token`LongName`LeftTee"%string); (TK_LongName_DownTee, "Token`LongName`DownTee"%string);
  (TK_LongName_UpTee, "Token`LongName`UpTee"%string); (TK_LongName_DoubleRightTee, "Token`LongName`DoubleRightTee"%string);
  (TK_LongName_LeftTriangle, "Token`LongName`LeftTriangle"%string); (TK_LongName_RightTriangle, "Token`LongName`RightTriangle"%string);
  (TK_LongName_LeftTriangleEqual, "Token`LongName`LeftTriangleEqual"%string); (TK_LongName_RightTriangleEqual, "Token`LongName`RightTriangleEqual"%string);
  (TK_LongName_Xor, "Token`LongName`Xor"%string); (TK_LongName_Nand, "Token`LongName`Nand"%string);
  (TK_LongName_Nor, "Token`LongName`Nor"%string); (TK_LongName_Wedge, "Token`LongName`Wedge"%string);
  (TK_LongName_Vee, "Token`LongName`Vee"%string); (TK_LongName_Intersection, "Token`LongName`Intersection"%string);
  (TK_LongName_Union, "Token`LongName`Union"%string); (TK_LongName_Diamond, "Token`LongName`Diamond"%string);
  (TK_LongName_Star, "Token`LongName`Star"%string); (TK_LongName_LessEqualGreater, "Token`LongName`LessEqualGreater"%string);
  (TK_LongName_GreaterEqualLess, "Token`LongName`GreaterEqualLess"%string); (TK_LongName_NotPrecedesSlantEqual, "Token`LongName`NotPrecedesSlantEqual"%string);
  (TK_LongName_NotSucceedsSlantEqual, "Token`LongName`NotSucceedsSlantEqual"%string); (TK_LongName_NotSquareSubsetEqual, "Token`LongName`NotSquareSubsetEqual"%string);
  (TK_LongName_NotSquareSupersetEqual, "Token`LongName`NotSquareSupersetEqual"%string); (TK_LongName_NotPrecedesTilde, "Token`LongName`NotPrecedesTilde"%string);
  (TK_LongName_NotSucceedsTilde, "Token`LongName`NotSucceedsTilde"%string); (TK_LongName_NotLeftTriangle, "Token`LongName`NotLeftTriangle"%string);
  (TK_LongName_NotRightTriangle, "Token`LongName`NotRightTriangle"%string); (TK_LongName_NotLeftTriangleEqual, "Token`LongName`NotLeftTriangleEqual"%string);
  (TK_LongName_NotRightTriangleEqual, "Token`LongName`NotRightTriangleEqual"%string); (TK_LongName_LeftCeiling, "Token`LongName`LeftCeiling"%string);
  (TK_LongName_RightCeiling, "Token`LongName`RightCeiling"%string); (TK_LongName_LeftFloor, "Token`LongName`LeftFloor"%string);
  (TK_LongName_RightFloor, "Token`LongName`RightFloor"%string); (TK_LongName_Cap, "Token`LongName`Cap"%string);
  (TK_LongName_Cup, "Token`LongName`Cup"%string); (TK_LongName_LeftAngleBracket, "Token`LongName`LeftAngleBracket"%string);
  (TK_LongName_RightAngleBracket, "Token`LongName`RightAngleBracket"%string); (TK_LongName_Perpendicular, "Token`LongName`Perpendicular"%string);
  (TK_LongName_LongLeftArrow, "Token`LongName`LongLeftArrow"%string); (TK_LongName_LongRightArrow, "Token`LongName`LongRightArrow"%string);
  (TK_LongName_LongLeftRightArrow, "Token`LongName`LongLeftRightArrow"%string); (TK_LongName_DoubleLongLeftArrow, "Token`LongName`DoubleLongLeftArrow"%string);
  (TK_LongName_DoubleLongRightArrow, "Token`LongName`DoubleLongRightArrow"%string); (TK_LongName_DoubleLongLeftRightArrow, "Token`LongName`DoubleLongLeftRightArrow"%string);
  (TK_LongName_UpArrowBar, "Token`LongName`UpArrowBar"%string); (TK_LongName_DownArrowBar, "Token`LongName`DownArrowBar"%string);
  (TK_LongName_LeftRightVector, "Token`LongName`LeftRightVector"%string); (TK_LongName_RightUpDownVector, "Token`LongName`RightUpDownVector"%string);
  (TK_LongName_DownLeftRightVector, "Token`LongName`DownLeftRightVector"%string); (TK_LongName_LeftUpDownVector, "Token`LongName`LeftUpDownVector"%string);
  (TK_LongName_LeftVectorBar, "Token`LongName`LeftVectorBar"%string); (TK_LongName_RightVectorBar, "Token`LongName`RightVectorBar"%string);
  (TK_LongName_RightUpVectorBar, "Token`LongName`RightUpVectorBar"%string); (TK_LongName_RightDownVectorBar, "Token`LongName`RightDownVectorBar"%string);
  (TK_LongName_DownLeftVectorBar, "Token`LongName`DownLeftVectorBar"%string); (TK_LongName_DownRightVectorBar, "Token`LongName`DownRightVectorBar"%string);
  (TK_LongName_LeftUpVectorBar, "Token`LongName`LeftUpVectorBar"%string); (TK_LongName_LeftDownVectorBar, "Token`LongName`LeftDownVectorBar"%string);
  (TK_LongName_LeftTeeVector, "Token`LongName`LeftTeeVector"%string); (TK_LongName_RightTeeVector, "Token`LongName`RightTeeVector"%string);
  (TK_LongName_RightUpTeeVector, "Token`LongName`RightUpTeeVector"%string); (TK_LongName_RightDownTeeVector, "Token`LongName`RightDownTeeVector"%string);
  (TK_LongName_DownLeftTeeVector, "Token`LongName`DownLeftTeeVector"%string); (TK_LongName_DownRightTeeVector, "Token`LongName`DownRightTeeVector"%string);
  (TK_LongName_LeftUpTeeVector, "Token`LongName`LeftUpTeeVector"%string); (TK_LongName_LeftDownTeeVector, "Token`LongName`LeftDownTeeVector"%string);
  (TK_LongName_UpEquilibrium, "Token`LongName`UpEquilibrium"%string); (TK_LongName_ReverseUpEquilibrium, "Token`LongName`ReverseUpEquilibrium"%string);
  (TK_LongName_RoundImplies, "Token`LongName`RoundImplies"%string); (TK_LongName_LeftTriangleBar, "Token`LongName`LeftTriangleBar"%string);
  (TK_LongName_RightTriangleBar, "Token`LongName`RightTriangleBar"%string); (TK_LongName_Equivalent, "Token`LongName`Equivalent"%string);
  (TK_LongName_LessSlantEqual, "Token`LongName`LessSlantEqual"%string); (TK_LongName_GreaterSlantEqual, "Token`LongName`GreaterSlantEqual"%string);
  (TK_LongName_NestedLessLess, "Token`LongName`NestedLessLess"%string); (TK_LongName_NestedGreaterGreater, "Token`LongName`NestedGreaterGreater"%string);
  (TK_LongName_PrecedesEqual, "Token`LongName`PrecedesEqual"%string); (TK_LongName_SucceedsEqual, "Token`LongName`SucceedsEqual"%string);
  (TK_LongName_DoubleLeftTee, "Token`LongName`DoubleLeftTee"%string); (TK_LongName_LeftDoubleBracket, "Token`LongName`LeftDoubleBracket"%string);
  (TK_LongName_RightDoubleBracket, "Token`LongName`RightDoubleBracket"%string); (TK_LongName_LeftAssociation, "Token`LongName`LeftAssociation"%string);
  (TK_LongName_RightAssociation, "Token`LongName`RightAssociation"%string); (TK_LongName_TwoWayRule, "Token`LongName`TwoWayRule"%string);
  (TK_LongName_Piecewise, "Token`LongName`Piecewise"%string); (TK_LongName_ImplicitPlus, "Token`LongName`ImplicitPlus"%string);
  (TK_LongName_AutoLeftMatch, "Token`LongName`AutoLeftMatch"%string); (TK_LongName_AutoRightMatch, "Token`LongName`AutoRightMatch"%string);
  (TK_LongName_InvisiblePrefixScriptBase, "Token`LongName`InvisiblePrefixScriptBase"%string); (TK_LongName_InvisiblePostfixScriptBase, "Token`LongName`InvisiblePostfixScriptBase"%string);
  (TK_LongName_Transpose, "Token`LongName`Transpose"%string); (TK_LongName_Conjugate, "Token`LongName`Conjugate"%string);
  (TK_LongName_ConjugateTranspose, "Token`LongName`ConjugateTranspose"%string); (TK_LongName_HermitianConjugate, "Token`LongName`HermitianConjugate"%string);
  (TK_LongName_VerticalBar, "Token`LongName`VerticalBar"%string); (TK_LongName_NotVerticalBar, "Token`LongName`NotVerticalBar"%string);
  (TK_LongName_Distributed, "Token`LongName`Distributed"%string); (TK_LongName_Conditioned, "Token`LongName`Conditioned"%string);
  (TK_LongName_UndirectedEdge, "Token`LongName`UndirectedEdge"%string); (TK_LongName_DirectedEdge, "Token`LongName`DirectedEdge"%string);
  (TK_LongName_ContinuedFractionK, "Token`LongName`ContinuedFractionK"%string); (TK_LongName_TensorProduct, "Token`LongName`TensorProduct"%string);
  (TK_LongName_TensorWedge, "Token`LongName`TensorWedge"%string); (TK_LongName_ProbabilityPr, "Token`LongName`ProbabilityPr"%string);
  (TK_LongName_ExpectationE, "Token`LongName`ExpectationE"%string); (TK_LongName_PermutationProduct, "Token`LongName`PermutationProduct"%string);
  (TK_LongName_NotEqualTilde, "Token`LongName`NotEqualTilde"%string); (TK_LongName_NotHumpEqual, "Token`LongName`NotHumpEqual"%string);
  (TK_LongName_NotHumpDownHump, "Token`LongName`NotHumpDownHump"%string); (TK_LongName_NotLeftTriangleBar, "Token`LongName`NotLeftTriangleBar"%string);
  (TK_LongName_NotRightTriangleBar, "Token`LongName`NotRightTriangleBar"%string); (TK_LongName_NotLessLess, "Token`LongName`NotLessLess"%string);
  (TK_LongName_NotNestedLessLess, "Token`LongName`NotNestedLessLess"%string); (TK_LongName_NotLessSlantEqual, "Token`LongName`NotLessSlantEqual"%string);
  (TK_LongName_NotGreaterGreater, "Token`LongName`NotGreaterGreater"%string); (TK_LongName_NotNestedGreaterGreater, "Token`LongName`NotNestedGreaterGreater"%string);
  (TK_LongName_NotGreaterSlantEqual, "Token`LongName`NotGreaterSlantEqual"%string); (TK_LongName_NotPrecedesEqual, "Token`LongName`NotPrecedesEqual"%string);
  (TK_LongName_NotSucceedsEqual, "Token`LongName`NotSucceedsEqual"%string); (TK_LongName_NotSquareSubset, "Token`LongName`NotSquareSubset"%string);
  (TK_LongName_NotSquareSuperset, "Token`LongName`NotSquareSuperset"%string); (TK_LongName_Equal, "Token`LongName`Equal"%string);
  (TK_LongName_VerticalSeparator, "Token`LongName`VerticalSeparator"%string); (TK_LongName_VectorGreater, "Token`LongName`VectorGreater"%string);
  (TK_LongName_VectorGreaterEqual, "Token`LongName`VectorGreaterEqual"%string); (TK_LongName_VectorLess, "Token`LongName`VectorLess"%string);
  (TK_LongName_VectorLessEqual, "Token`LongName`VectorLessEqual"%string); (TK_LongName_Limit, "Token`LongName`Limit"%string);
  (TK_LongName_MaxLimit, "Token`LongName`MaxLimit"%string); (TK_LongName_MinLimit, "Token`LongName`MinLimit"%string);
  (TK_LongName_Cross, "Token`LongName`Cross"%string); (TK_LongName_Function, "Token`LongName`Function"%string);
  (TK_LongName_Xnor, "Token`LongName`Xnor"%string); (TK_LongName_DiscreteShift, "Token`LongName`DiscreteShift"%string);
  (TK_LongName_DifferenceDelta, "Token`LongName`DifferenceDelta"%string); (TK_LongName_DiscreteRatio, "Token`LongName`DiscreteRatio"%string);
  (TK_LongName_RuleDelayed, "Token`LongName`RuleDelayed"%string); (TK_LongName_Square, "Token`LongName`Square"%string);
  (TK_LongName_Rule, "Token`LongName`Rule"%string); (TK_LongName_Implies, "Token`LongName`Implies"%string);
  (TK_LongName_ShortRightArrow, "Token`LongName`ShortRightArrow"%string); (TK_LongName_ShortLeftArrow, "Token`LongName`ShortLeftArrow"%string);
  (TK_LongName_ShortUpArrow, "Token`LongName`ShortUpArrow"%string); (TK_LongName_ShortDownArrow, "Token`LongName`ShortDownArrow"%string);
  (TK_LongName_Application, "Token`LongName`Application"%string); (TK_LongName_LeftBracketingBar, "Token`LongName`LeftBracketingBar"%string);
  (TK_LongName_RightBracketingBar, "Token`LongName`RightBracketingBar"%string); (TK_LongName_LeftDoubleBracketingBar, "Token`LongName`LeftDoubleBracketingBar"%string);
  (TK_LongName_RightDoubleBracketingBar, "Token`LongName`RightDoubleBracketingBar"%string); (TK_LongName_CapitalDifferentialD, "Token`LongName`CapitalDifferentialD"%string);
  (TK_LongName_DifferentialD, "Token`LongName`DifferentialD"%string); (TK_LongName_InvisibleComma, "Token`LongName`InvisibleComma"%string);
  (TK_LongName_InvisibleApplication, "Token`LongName`InvisibleApplication"%string); (TK_LongName_LongEqual, "Token`LongName`LongEqual"%string)
].

(** InfixOperator::to_symbol and try_from_symbol, match arms in source order *)
Definition IOP_TO : list (Z * string) := [
  (IOP_Times, "System`Times"%string); (IOP_CompoundExpression, "System`CompoundExpression"%string);
  (IOP_MessageName, "System`MessageName"%string); (IOP_CodeParser_InternalInvalid, "CodeParser`InternalInvalid"%string);
  (IOP_CodeParser_Comma, "CodeParser`Comma"%string); (IOP_CodeParser_InfixTilde, "CodeParser`InfixTilde"%string);
  (IOP_Plus, "System`Plus"%string); (IOP_SameQ, "System`SameQ"%string);
  (IOP_UnsameQ, "System`UnsameQ"%string); (IOP_Dot, "System`Dot"%string);
  (IOP_NonCommutativeMultiply, "System`NonCommutativeMultiply"%string); (IOP_And, "System`And"%string);
  (IOP_Or, "System`Or"%string); (IOP_Alternatives, "System`Alternatives"%string);
  (IOP_StringJoin, "System`StringJoin"%string); (IOP_StringExpression, "System`StringExpression"%string);
  (IOP_Composition, "System`Composition"%string); (IOP_RightComposition, "System`RightComposition"%string);
  (IOP_Element, "System`Element"%string); (IOP_Subset, "System`Subset"%string);
  (IOP_Superset, "System`Superset"%string); (IOP_SubsetEqual, "System`SubsetEqual"%string);
  (IOP_SupersetEqual, "System`SupersetEqual"%string); (IOP_NotElement, "System`NotElement"%string);
  (IOP_NotSubset, "System`NotSubset"%string); (IOP_NotSuperset, "System`NotSuperset"%string);
  (IOP_NotSubsetEqual, "System`NotSubsetEqual"%string); (IOP_NotSupersetEqual, "System`NotSupersetEqual"%string);
  (IOP_SquareSubset, "System`SquareSubset"%string); (IOP_SquareSuperset, "System`SquareSuperset"%string);
  (IOP_NotSquareSubset, "System`NotSquareSubset"%string); (IOP_NotSquareSuperset, "System`NotSquareSuperset"%string);
  (IOP_SquareSubsetEqual, "System`SquareSubsetEqual"%string); (IOP_SquareSupersetEqual, "System`SquareSupersetEqual"%string);
  (IOP_NotSquareSubsetEqual, "System`NotSquareSubsetEqual"%string); (IOP_NotSquareSupersetEqual, "System`NotSquareSupersetEqual"%string);
  (IOP_ReverseElement, "System`ReverseElement"%string); (IOP_NotReverseElement, "System`NotReverseElement"%string);
  (IOP_Distributed, "System`Distributed"%string); (IOP_Xor, "System`Xor"%string);
  (IOP_Nand, "System`Nand"%string); (IOP_Nor, "System`Nor"%string);
  (IOP_LeftArrow, "System`LeftArrow"%string); (IOP_RightArrow, "System`RightArrow"%string);
  (IOP_LeftRightArrow, "System`LeftRightArrow"%string); (IOP_LeftTeeArrow, "System`LeftTeeArrow"%string);
  (IOP_RightTeeArrow, "System`RightTeeArrow"%string); (IOP_RightArrowLeftArrow, "System`RightArrowLeftArrow"%string);
  (IOP_LeftArrowRightArrow, "System`LeftArrowRightArrow"%string); (IOP_DoubleLeftArrow, "System`DoubleLeftArrow"%string);
  (IOP_DoubleRightArrow, "System`DoubleRightArrow"%string); (IOP_DoubleLeftRightArrow, "System`DoubleLeftRightArrow"%string);
  (IOP_LeftArrowBar, "System`LeftArrowBar"%string); (IOP_RightArrowBar, "System`RightArrowBar"%string);
  (IOP_ShortRightArrow, "System`ShortRightArrow"%string); (IOP_ShortLeftArrow, "System`ShortLeftArrow"%string);
  (IOP_UpperLeftArrow, "System`UpperLeftArrow"%string); (IOP_UpperRightArrow, "System`UpperRightArrow"%string);
  (IOP_LowerRightArrow, "System`LowerRightArrow"%string); (IOP_LowerLeftArrow, "System`LowerLeftArrow"%string);
  (IOP_LeftVector, "System`LeftVector"%string); (IOP_RightVector, "System`RightVector"%string);
  (IOP_LeftRightVector, "System`LeftRightVector"%string); (IOP_LeftVectorBar, "System`LeftVectorBar"%string);
  (IOP_RightVectorBar, "System`RightVectorBar"%string); (IOP_LeftTeeVector, "System`LeftTeeVector"%string);
  (IOP_RightTeeVector, "System`RightTeeVector"%string); (IOP_DownLeftVector, "System`DownLeftVector"%string);
  (IOP_DownRightVector, "System`DownRightVector"%string); (IOP_DownLeftRightVector, "System`DownLeftRightVector"%string);
  (IOP_DownLeftVectorBar, "System`DownLeftVectorBar"%string); (IOP_DownRightVectorBar, "System`DownRightVectorBar"%string);
  (IOP_DownLeftTeeVector, "System`DownLeftTeeVector"%string); (IOP_DownRightTeeVector, "System`DownRightTeeVector"%string);
  (IOP_UpArrow, "System`UpArrow"%string); (IOP_DownArrow, "System`DownArrow"%string);
  (IOP_UpDownArrow, "System`UpDownArrow"%string); (IOP_UpTeeArrow, "System`UpTeeArrow"%string);
  (IOP_DownTeeArrow, "System`DownTeeArrow"%string); (IOP_UpArrowDownArrow, "System`UpArrowDownArrow"%string);
  (IOP_DoubleUpArrow, "System`DoubleUpArrow"%string); (IOP_DoubleDownArrow, "System`DoubleDownArrow"%string);
  (IOP_DoubleUpDownArrow, "System`DoubleUpDownArrow"%string); (IOP_DownArrowUpArrow, "System`DownArrowUpArrow"%string);
  (IOP_LongLeftArrow, "System`LongLeftArrow"%string); (IOP_LongRightArrow, "System`LongRightArrow"%string);
  (IOP_LongLeftRightArrow, "System`LongLeftRightArrow"%string); (IOP_DoubleLongLeftArrow, "System`DoubleLongLeftArrow"%string);
  (IOP_DoubleLongRightArrow, "System`DoubleLongRightArrow"%string); (IOP_DoubleLongLeftRightArrow, "System`DoubleLongLeftRightArrow"%string);
  (IOP_UpArrowBar, "System`UpArrowBar"%string); (IOP_DownArrowBar, "System`DownArrowBar"%string);
  (IOP_ShortUpArrow, "System`ShortUpArrow"%string); (IOP_ShortDownArrow, "System`ShortDownArrow"%string);
  (IOP_RightUpVector, "System`RightUpVector"%string); (IOP_LeftUpVector, "System`LeftUpVector"%string);
  (IOP_RightDownVector, "System`RightDownVector"%string); (IOP_LeftDownVector, "System`LeftDownVector"%string);
  (IOP_RightUpDownVector, "System`RightUpDownVector"%string); (IOP_LeftUpDownVector, "System`LeftUpDownVector"%string);
  (IOP_RightUpVectorBar, "System`RightUpVectorBar"%string); (IOP_RightDownVectorBar, "System`RightDownVectorBar"%string);
  (IOP_LeftUpVectorBar, "System`LeftUpVectorBar"%string); (IOP_LeftDownVectorBar, "System`LeftDownVectorBar"%string);
  (IOP_RightUpTeeVector, "System`RightUpTeeVector"%string); (IOP_RightDownTeeVector, "System`RightDownTeeVector"%string);
  (IOP_LeftUpTeeVector, "System`LeftUpTeeVector"%string); (IOP_LeftDownTeeVector, "System`LeftDownTeeVector"%string);
  (IOP_UpEquilibrium, "System`UpEquilibrium"%string); (IOP_ReverseUpEquilibrium, "System`ReverseUpEquilibrium"%string);
  (IOP_CenterDot, "System`CenterDot"%string); (IOP_Equivalent, "System`Equivalent"%string);
  (IOP_CircleDot, "System`CircleDot"%string); (IOP_Conditioned, "System`Conditioned"%string);
  (IOP_Union, "System`Union"%string); (IOP_SquareUnion, "System`SquareUnion"%string);
  (IOP_UnionPlus, "System`UnionPlus"%string); (IOP_Intersection, "System`Intersection"%string);
  (IOP_SquareIntersection, "System`SquareIntersection"%string); (IOP_TensorWedge, "System`TensorWedge"%string);
  (IOP_TensorProduct, "System`TensorProduct"%string); (IOP_Cross, "System`Cross"%string);
  (IOP_SmallCircle, "System`SmallCircle"%string); (IOP_Divisible, "System`Divisible"%string);
  (IOP_VerticalSeparator, "System`VerticalSeparator"%string); (IOP_Backslash, "System`Backslash"%string);
  (IOP_Diamond, "System`Diamond"%string); (IOP_Wedge, "System`Wedge"%string);
  (IOP_Vee, "System`Vee"%string); (IOP_CircleTimes, "System`CircleTimes"%string);
  (IOP_Star, "System`Star"%string); (IOP_VerticalTilde, "System`VerticalTilde"%string);
  (IOP_Coproduct, "System`Coproduct"%string); (IOP_Cap, "System`Cap"%string);
  (IOP_Cup, "System`Cup"%string); (IOP_CirclePlus, "System`CirclePlus"%string);
  (IOP_VerticalBar, "System`VerticalBar"%string); (IOP_DoubleVerticalBar, "System`DoubleVerticalBar"%string);
  (IOP_NotVerticalBar, "System`NotVerticalBar"%string); (IOP_NotDoubleVerticalBar, "System`NotDoubleVerticalBar"%string);
  (IOP_LeftTriangle, "System`LeftTriangle"%string); (IOP_RightTriangle, "System`RightTriangle"%string);
  (IOP_NotLeftTriangle, "System`NotLeftTriangle"%string); (IOP_NotRightTriangle, "System`NotRightTriangle"%string);
  (IOP_LeftTriangleEqual, "System`LeftTriangleEqual"%string); (IOP_RightTriangleEqual, "System`RightTriangleEqual"%string);
  (IOP_NotLeftTriangleEqual, "System`NotLeftTriangleEqual"%string); (IOP_NotRightTriangleEqual, "System`NotRightTriangleEqual"%string);
  (IOP_LeftTriangleBar, "System`LeftTriangleBar"%string); (IOP_RightTriangleBar, "System`RightTriangleBar"%string);
  (IOP_NotLeftTriangleBar, "System`NotLeftTriangleBar"%string); (IOP_NotRightTriangleBar, "System`NotRightTriangleBar"%string);
  (IOP_TildeEqual, "System`TildeEqual"%string); (IOP_NotTildeEqual, "System`NotTildeEqual"%string);
  (IOP_TildeFullEqual, "System`TildeFullEqual"%string); (IOP_NotTildeFullEqual, "System`NotTildeFullEqual"%string);
  (IOP_Tilde, "System`Tilde"%string); (IOP_NotTilde, "System`NotTilde"%string);
  (IOP_EqualTilde, "System`EqualTilde"%string); (IOP_NotEqualTilde, "System`NotEqualTilde"%string);
  (IOP_TildeTilde, "System`TildeTilde"%string); (IOP_NotTildeTilde, "System`NotTildeTilde"%string);
  (IOP_Proportional, "System`Proportional"%string); (IOP_Proportion, "System`Proportion"%string);
  (IOP_Congruent, "System`Congruent"%string); (IOP_NotCongruent, "System`NotCongruent"%string);
  (IOP_Equilibrium, "System`Equilibrium"%string); (IOP_ReverseEquilibrium, "System`ReverseEquilibrium"%string);
  (IOP_DotEqual, "System`DotEqual"%string); (IOP_Precedes, "System`Precedes"%string);
  (IOP_Succeeds, "System`Succeeds"%string); (IOP_PrecedesEqual, "System`PrecedesEqual"%string);
  (IOP_SucceedsEqual, "System`SucceedsEqual"%string); (IOP_PrecedesTilde, "System`PrecedesTilde"%string);
  (IOP_SucceedsTilde, "System`SucceedsTilde"%string); (IOP_PrecedesSlantEqual, "System`PrecedesSlantEqual"%string);
  (IOP_SucceedsSlantEqual, "System`SucceedsSlantEqual"%string); (IOP_NotPrecedes, "System`NotPrecedes"%string);
  (IOP_NotSucceeds, "System`NotSucceeds"%string); (IOP_NotPrecedesEqual, "System`NotPrecedesEqual"%string);
  (IOP_NotSucceedsEqual, "System`NotSucceedsEqual"%string); (IOP_NotPrecedesTilde, "System`NotPrecedesTilde"%string);
  (IOP_NotSucceedsTilde, "System`NotSucceedsTilde"%string); (IOP_NotPrecedesSlantEqual, "System`NotPrecedesSlantEqual"%string);
  (IOP_NotSucceedsSlantEqual, "System`NotSucceedsSlantEqual"%string); (IOP_CupCap, "System`CupCap"%string);
  (IOP_NotCupCap, "System`NotCupCap"%string); (IOP_HumpEqual, "System`HumpEqual"%string);
  (IOP_HumpDownHump, "System`HumpDownHump"%string); (IOP_NotHumpEqual, "System`NotHumpEqual"%string);
  (IOP_NotHumpDownHump, "System`NotHumpDownHump"%string); (IOP_CodeParser_InfixInequality, "CodeParser`InfixInequality"%string);
  (IOP_PermutationProduct, "System`PermutationProduct"%string); (IOP_Colon, "System`Colon"%string);
  (IOP_Xnor, "System`Xnor"%string)
].
Definition IOP_FROM : list (string * Z) := [
  ("System`Times"%string, IOP_Times); ("System`CompoundExpression"%string, IOP_CompoundExpression);
  ("System`MessageName"%string, IOP_MessageName); ("CodeParser`InternalInvalid"%string, IOP_CodeParser_InternalInvalid);
  ("CodeParser`Comma"%string, IOP_CodeParser_Comma); ("CodeParser`InfixTilde"%string, IOP_CodeParser_InfixTilde);
  ("System`Plus"%string, IOP_Plus); ("System`SameQ"%string, IOP_SameQ);
  ("System`UnsameQ"%string, IOP_UnsameQ); ("System`Dot"%string, IOP_Dot);
  ("System`NonCommutativeMultiply"%string, IOP_NonCommutativeMultiply); ("System`And"%string, IOP_And);
  ("System`Or"%string, IOP_Or); ("System`Alternatives"%string, IOP_Alternatives);
  ("System`StringJoin"%string, IOP_StringJoin); ("System`StringExpression"%string, IOP_StringExpression);
  ("System`Composition"%string, IOP_Composition); ("System`RightComposition"%string, IOP_RightComposition);
  ("System`Element"%string, IOP_Element); ("System`Subset"%string, IOP_Subset);
  ("System`Superset"%string, IOP_Superset); ("System`SubsetEqual"%string, IOP_SubsetEqual);
  ("System`SupersetEqual"%string, IOP_SupersetEqual); ("System`NotElement"%string, IOP_NotElement);
  ("System`NotSubset"%string, IOP_NotSubset); ("System`NotSuperset"%string, IOP_NotSuperset);
  ("System`NotSubsetEqual"%string, IOP_NotSubsetEqual); ("System`NotSupersetEqual"%string, IOP_NotSupersetEqual);
  ("System`SquareSubset"%string, IOP_SquareSubset); ("System`SquareSuperset"%string, IOP_SquareSuperset);
  ("System`NotSquareSubset"%string, IOP_NotSquareSubset); ("System`NotSquareSuperset"%string, IOP_NotSquareSuperset);
  ("System`SquareSubsetEqual"%string, IOP_SquareSubsetEqual); ("System`SquareSupersetEqual"%string, IOP_SquareSupersetEqual);
  ("System`NotSquareSubsetEqual"%string, IOP_NotSquareSubsetEqual); ("System`NotSquareSupersetEqual"%string, IOP_NotSquareSupersetEqual);
  ("System`ReverseElement"%string, IOP_ReverseElement); ("System`NotReverseElement"%string, IOP_NotReverseElement);
  ("System`Distributed"%string, IOP_Distributed); ("System`Xor"%string, IOP_Xor);
  ("System`Nand"%string, IOP_Nand); ("System`Nor"%string, IOP_Nor);
  ("System`LeftArrow"%string, IOP_LeftArrow); ("System`RightArrow"%string, IOP_RightArrow);
  ("System`LeftRightArrow"%string, IOP_LeftRightArrow); ("System`LeftTeeArrow"%string, IOP_LeftTeeArrow);
  ("System`RightTeeArrow"%string, IOP_RightTeeArrow); ("System`RightArrowLeftArrow"%string, IOP_RightArrowLeftArrow);
  ("System`LeftArrowRightArrow"%string, IOP_LeftArrowRightArrow); ("System`DoubleLeftArrow"%string, IOP_DoubleLeftArrow);
  ("System`DoubleRightArrow"%string, IOP_DoubleRightArrow); ("System`DoubleLeftRightArrow"%string, IOP_DoubleLeftRightArrow);
  ("System`LeftArrowBar"%string, IOP_LeftArrowBar); ("System`RightArrowBar"%string, IOP_RightArrowBar);
  ("System`ShortRightArrow"%string, IOP_ShortRightArrow); ("System`ShortLeftArrow"%string, IOP_ShortLeftArrow);
  ("System`UpperLeftArrow"%string, IOP_UpperLeftArrow); ("System`UpperRightArrow"%string, IOP_UpperRightArrow);
  ("System`LowerRightArrow"%string, IOP_LowerRightArrow); ("System`LowerLeftArrow"%string, IOP_LowerLeftArrow);
  ("System`LeftVector"%string, IOP_LeftVector); ("System`RightVector"%string, IOP_RightVector);
  ("System`LeftRightVector"%string, IOP_LeftRightVector); ("System`LeftVectorBar"%string, IOP_LeftVectorBar);
  ("System`RightVectorBar"%string, IOP_RightVectorBar); ("System`LeftTeeVector"%string, IOP_LeftTeeVector);
  ("System`RightTeeVector"%string, IOP_RightTeeVector); ("System`DownLeftVector"%string, IOP_DownLeftVector);
  ("System`DownRightVector"%string, IOP_DownRightVector); ("System`DownLeftRightVector"%string, IOP_DownLeftRightVector);
  ("System`DownLeftVectorBar"%string, IOP_DownLeftVectorBar); ("System`DownRightVectorBar"%string, IOP_DownRightVectorBar);
  ("System`DownLeftTeeVector"%string, IOP_DownLeftTeeVector); ("System`DownRightTeeVector"%string, IOP_DownRightTeeVector);
  ("System`UpArrow"%string, IOP_UpArrow); ("System`DownArrow"%string, IOP_DownArrow);
  ("System`UpDownArrow"%string, IOP_UpDownArrow); ("System`UpTeeArrow"%string, IOP_UpTeeArrow);
  ("System`DownTeeArrow"%string, IOP_DownTeeArrow); ("System`UpArrowDownArrow"%string, IOP_UpArrowDownArrow);
  ("System`DoubleUpArrow"%string, IOP_DoubleUpArrow); ("System`DoubleDownArrow"%string, IOP_DoubleDownArrow);
  ("System`DoubleUpDownArrow"%string, IOP_DoubleUpDownArrow); ("System`DownArrowUpArrow"%string, IOP_DownArrowUpArrow);
  ("System`LongLeftArrow"%string, IOP_LongLeftArrow); ("System`LongRightArrow"%string, IOP_LongRightArrow);
  ("System`LongLeftRightArrow"%string, IOP_LongLeftRightArrow); ("System`DoubleLongLeftArrow"%string, IOP_DoubleLongLeftArrow);
  ("System`DoubleLongRightArrow"%string, IOP_DoubleLongRightArrow); ("System`DoubleLongLeftRightArrow"%string, IOP_DoubleLongLeftRightArrow);
  ("System`UpArrowBar"%string, IOP_UpArrowBar); ("System`DownArrowBar"%string, IOP_DownArrowBar);
  ("System`ShortUpArrow"%string, IOP_ShortUpArrow); ("System`ShortDownArrow"%string, IOP_ShortDownArrow);
  ("System`RightUpVector"%string, IOP_RightUpVector); ("System`LeftUpVector"%string, IOP_LeftUpVector);
  ("System`RightDownVector"%string, IOP_RightDownVector); ("System`LeftDownVector"%string, IOP_LeftDownVector);
  ("System`RightUpDownVector"%string, IOP_RightUpDownVector); ("System`LeftUpDownVector"%string, IOP_LeftUpDownVector);
  ("System`RightUpVectorBar"%string, IOP_RightUpVectorBar); ("System`RightDownVectorBar"%string, IOP_RightDownVectorBar);
  ("System`LeftUpVectorBar"%string, IOP_LeftUpVectorBar); ("System`LeftDownVectorBar"%string, IOP_LeftDownVectorBar);
  ("System`RightUpTeeVector"%string, IOP_RightUpTeeVector); ("System`RightDownTeeVector"%string, IOP_RightDownTeeVector);
  ("System`LeftUpTeeVector"%string, IOP_LeftUpTeeVector); ("System`LeftDownTeeVector"%string, IOP_LeftDownTeeVector);
  ("System`UpEquilibrium"%string, IOP_UpEquilibrium); ("System`ReverseUpEquilibrium"%string, IOP_ReverseUpEquilibrium);
  ("System`CenterDot"%string, IOP_CenterDot); ("System`Equivalent"%string, IOP_Equivalent);
  ("System`CircleDot"%string, IOP_CircleDot); ("System`Conditioned"%string, IOP_Conditioned);
  ("System`Union"%string, IOP_Union); ("System`SquareUnion"%string, IOP_SquareUnion);
  ("System`UnionPlus"%string, IOP_UnionPlus); ("System`Intersection"%string, IOP_Intersection);
  ("System`SquareIntersection"%string, IOP_SquareIntersection); ("System`TensorWedge"%string, IOP_TensorWedge);
  ("System`TensorProduct"%string, IOP_TensorProduct); ("System`Cross"%string, IOP_Cross);
  ("System`SmallCircle"%string, IOP_SmallCircle); ("System`Divisible"%string, IOP_Divisible);
  ("System`VerticalSeparator"%string, IOP_VerticalSeparator); ("System`Backslash"%string, IOP_Backslash);
  ("System`Diamond"%string, IOP_Diamond); ("System`Wedge"%string, IOP_Wedge);
  ("System`Vee"%string, IOP_Vee); ("System`CircleTimes"%string, IOP_CircleTimes);
  ("System`Star"%string, IOP_Star); ("System`VerticalTilde"%string, IOP_VerticalTilde);
  ("System`Coproduct"%string, IOP_Coproduct); ("System`Cap"%string, IOP_Cap);
  ("System`Cup"%string, IOP_Cup); ("System`CirclePlus"%string, IOP_CirclePlus);
  ("System`VerticalBar"%string, IOP_VerticalBar); ("System`DoubleVerticalBar"%string, IOP_DoubleVerticalBar);
  ("System`NotVerticalBar"%string, IOP_NotVerticalBar); ("System`NotDoubleVerticalBar"%string, IOP_NotDoubleVerticalBar);
  ("System`LeftTriangle"%string, IOP_LeftTriangle); ("System`RightTriangle"%string, IOP_RightTriangle);
  ("System`NotLeftTriangle"%string, IOP_NotLeftTriangle); ("System`NotRightTriangle"%string, IOP_NotRightTriangle);
  ("System`LeftTriangleEqual"%string, IOP_LeftTriangleEqual); ("System`RightTriangleEqual"%string, IOP_RightTriangleEqual);
  ("System`NotLeftTriangleEqual"%string, IOP_NotLeftTriangleEqual); ("System`NotRightTriangleEqual"%string, IOP_NotRightTriangleEqual);
  ("System`LeftTriangleBar"%string, IOP_LeftTriangleBar); ("System`RightTriangleBar"%string, IOP_RightTriangleBar);
  ("System`NotLeftTriangleBar"%string, IOP_NotLeftTriangleBar); ("System`NotRightTriangleBar"%string, IOP_NotRightTriangleBar);
  ("System`TildeEqual"%string, IOP_TildeEqual); ("System`NotTildeEqual"%string, IOP_NotTildeEqual);
  ("System`TildeFullEqual"%string, IOP_TildeFullEqual); ("System`NotTildeFullEqual"%string, IOP_NotTildeFullEqual);
  ("System`Tilde"%string, IOP_Tilde); ("System`NotTilde"%string, IOP_NotTilde);
  ("System`EqualTilde"%string, IOP_EqualTilde); ("System`NotEqualTilde"%string, IOP_NotEqualTilde);
  ("System`TildeTilde"%string, IOP_TildeTilde); ("System`NotTildeTilde"%string, IOP_NotTildeTilde);
  ("System`Proportional"%string, IOP_Proportional); ("System`Proportion"%string, IOP_Proportion);
  ("System`Congruent"%string, IOP_Congruent); ("System`NotCongruent"%string, IOP_NotCongruent);
  ("System`Equilibrium"%string, IOP_Equilibrium); ("System`ReverseEquilibrium"%string, IOP_ReverseEquilibrium);
  ("System`DotEqual"%string, IOP_DotEqual); ("System`Precedes"%string, IOP_Precedes);
  ("System`Succeeds"%string, IOP_Succeeds); ("System`PrecedesEqual"%string, IOP_PrecedesEqual);
  ("System`SucceedsEqual"%string, IOP_SucceedsEqual); ("System`PrecedesTilde"%string, IOP_PrecedesTilde);
  ("System`SucceedsTilde"%string, IOP_SucceedsTilde); ("System`PrecedesSlantEqual"%string, IOP_PrecedesSlantEqual);
  ("System`SucceedsSlantEqual"%string, IOP_SucceedsSlantEqual); ("System`NotPrecedes"%string, IOP_NotPrecedes);
  ("System`NotSucceeds"%string, IOP_NotSucceeds); ("System`NotPrecedesEqual"%string, IOP_NotPrecedesEqual);
  ("System`NotSucceedsEqual"%string, IOP_NotSucceedsEqual); ("System`NotPrecedesTilde"%string, IOP_NotPrecedesTilde);
  ("System`NotSucceedsTilde"%string, IOP_NotSucceedsTilde); ("System`NotPrecedesSlantEqual"%string, IOP_NotPrecedesSlantEqual);
  ("System`NotSucceedsSlantEqual"%string, IOP_NotSucceedsSlantEqual); ("System`CupCap"%string, IOP_CupCap);
  ("System`NotCupCap"%string, IOP_NotCupCap); ("System`HumpEqual"%string, IOP_HumpEqual);
  ("System`HumpDownHump"%string, IOP_HumpDownHump); ("System`NotHumpEqual"%string, IOP_NotHumpEqual);
  ("System`NotHumpDownHump"%string, IOP_NotHumpDownHump); ("CodeParser`InfixInequality"%string, IOP_CodeParser_InfixInequality);
  ("System`PermutationProduct"%string, IOP_PermutationProduct); ("System`Colon"%string, IOP_Colon);
  ("System`Xnor"%string, IOP_Xnor)
].

(** PrefixOperator::to_symbol and try_from_symbol, match arms in source order *)
Definition PREOP_TO : list (Z * string) := [
  (PREOP_Information, "System`Information"%string); (PREOP_Get, "System`Get"%string);
  (PREOP_Minus, "System`Minus"%string); (PREOP_Plus, "System`Plus"%string);
  (PREOP_Not, "System`Not"%string); (PREOP_PreIncrement, "System`PreIncrement"%string);
  (PREOP_PreDecrement, "System`PreDecrement"%string); (PREOP_CodeParser_PrefixNot2, "CodeParser`PrefixNot2"%string);
  (PREOP_PlusMinus, "System`PlusMinus"%string); (PREOP_Sum, "System`Sum"%string);
  (PREOP_Sqrt, "System`Sqrt"%string); (PREOP_MinusPlus, "System`MinusPlus"%string);
  (PREOP_DifferentialD, "System`DifferentialD"%string); (PREOP_CapitalDifferentialD, "System`CapitalDifferentialD"%string);
  (PREOP_Del, "System`Del"%string); (PREOP_Square, "System`Square"%string);
  (PREOP_Product, "System`Product"%string); (PREOP_ContinuedFractionK, "System`ContinuedFractionK"%string);
  (PREOP_CircleTimes, "System`CircleTimes"%string); (PREOP_ForAll, "System`ForAll"%string);
  (PREOP_Exists, "System`Exists"%string); (PREOP_NotExists, "System`NotExists"%string);
  (PREOP_Coproduct, "System`Coproduct"%string); (PREOP_Piecewise, "System`Piecewise"%string);
  (PREOP_InvisiblePrefixScriptBase, "System`InvisiblePrefixScriptBase"%string); (PREOP_ExpectationE, "System`ExpectationE"%string);
  (PREOP_CubeRoot, "System`CubeRoot"%string); (PREOP_ProbabilityPr, "System`ProbabilityPr"%string);
  (PREOP_CodeParser_PrefixLinearSyntaxBang, "CodeParser`PrefixLinearSyntaxBang"%string); (PREOP_Integral, "System`Integral"%string);
  (PREOP_ContourIntegral, "System`ContourIntegral"%string); (PREOP_DoubleContourIntegral, "System`DoubleContourIntegral"%string);
  (PREOP_ClockwiseContourIntegral, "System`ClockwiseContourIntegral"%string); (PREOP_CounterClockwiseContourIntegral, "System`CounterClockwiseContourIntegral"%string)
].
Definition PREOP_FROM : list (string * Z) := [
  ("System`Information"%string, PREOP_Information); ("System`Get"%string, PREOP_Get);
  ("System`Minus"%string, PREOP_Minus); ("System`Plus"%string, PREOP_Plus);
  ("System`Not"%string, PREOP_Not); ("System`PreIncrement"%string, PREOP_PreIncrement);
  ("System`PreDecrement"%string, PREOP_PreDecrement); ("CodeParser`PrefixNot2"%string, PREOP_CodeParser_PrefixNot2);
  ("System`PlusMinus"%string, PREOP_PlusMinus); ("System`Sum"%string, PREOP_Sum);
  ("System`Sqrt"%string, PREOP_Sqrt); ("System`MinusPlus"%string, PREOP_MinusPlus);
  ("System`DifferentialD"%string, PREOP_DifferentialD); ("System`CapitalDifferentialD"%string, PREOP_CapitalDifferentialD);
  ("System`Del"%string, PREOP_Del); ("System`Square"%string, PREOP_Square);
  ("System`Product"%string, PREOP_Product); ("System`ContinuedFractionK"%string, PREOP_ContinuedFractionK);
  ("System`CircleTimes"%string, PREOP_CircleTimes); ("System`ForAll"%string, PREOP_ForAll);
  ("System`Exists"%string, PREOP_Exists); ("System`NotExists"%string, PREOP_NotExists);
  ("System`Coproduct"%string, PREOP_Coproduct); ("System`Piecewise"%string, PREOP_Piecewise);
  ("System`InvisiblePrefixScriptBase"%string, PREOP_InvisiblePrefixScriptBase); ("System`ExpectationE"%string, PREOP_ExpectationE);
  ("System`CubeRoot"%string, PREOP_CubeRoot); ("System`ProbabilityPr"%string, PREOP_ProbabilityPr);
  ("CodeParser`PrefixLinearSyntaxBang"%string, PREOP_CodeParser_PrefixLinearSyntaxBang); ("System`Integral"%string, PREOP_Integral);
  ("System`ContourIntegral"%string, PREOP_ContourIntegral); ("System`DoubleContourIntegral"%string, PREOP_DoubleContourIntegral);
  ("System`ClockwiseContourIntegral"%string, PREOP_ClockwiseContourIntegral); ("System`CounterClockwiseContourIntegral"%string, PREOP_CounterClockwiseContourIntegral)
].

(** PostfixOperator::to_symbol and try_from_symbol, match arms in source order *)
Definition POSTOP_TO : list (Z * string) := [
  (POSTOP_Function, "System`Function"%string); (POSTOP_Repeated, "System`Repeated"%string);
  (POSTOP_Factorial, "System`Factorial"%string); (POSTOP_Decrement, "System`Decrement"%string);
  (POSTOP_Increment, "System`Increment"%string); (POSTOP_RepeatedNull, "System`RepeatedNull"%string);
  (POSTOP_Factorial2, "System`Factorial2"%string); (POSTOP_Derivative, "System`Derivative"%string);
  (POSTOP_Transpose, "System`Transpose"%string); (POSTOP_Conjugate, "System`Conjugate"%string);
  (POSTOP_ConjugateTranspose, "System`ConjugateTranspose"%string); (POSTOP_HermitianConjugate, "System`HermitianConjugate"%string);
  (POSTOP_InvisiblePostfixScriptBase, "System`InvisiblePostfixScriptBase"%string)
].
Definition POSTOP_FROM : list (string * Z) := [
  ("System`Function"%string, POSTOP_Function); ("System`Repeated"%string, POSTOP_Repeated);
  ("System`Factorial"%string, POSTOP_Factorial); ("System`Decrement"%string, POSTOP_Decrement);
  ("System`Increment"%string, POSTOP_Increment); ("System`RepeatedNull"%string, POSTOP_RepeatedNull);
  ("System`Factorial2"%string, POSTOP_Factorial2); ("System`Derivative"%string, POSTOP_Derivative);
  ("System`Transpose"%string, POSTOP_Transpose); ("System`Conjugate"%string, POSTOP_Conjugate);
  ("System`ConjugateTranspose"%string, POSTOP_ConjugateTranspose); ("System`HermitianConjugate"%string, POSTOP_HermitianConjugate);
  ("System`InvisiblePostfixScriptBase"%string, POSTOP_InvisiblePostfixScriptBase)
].

(** BinaryOperator::to_symbol and try_from_symbol, match arms in source order *)
Definition BOP_TO : list (Z * string) := [
  (BOP_Pattern, "System`Pattern"%string); (BOP_Optional, "System`Optional"%string);
  (BOP_Set, "System`Set"%string); (BOP_SetDelayed, "System`SetDelayed"%string);
  (BOP_Unset, "System`Unset"%string); (BOP_Put, "System`Put"%string);
  (BOP_PutAppend, "System`PutAppend"%string); (BOP_Span, "System`Span"%string);
  (BOP_Divide, "System`Divide"%string); (BOP_Power, "System`Power"%string);
  (BOP_UpSet, "System`UpSet"%string); (BOP_UpSetDelayed, "System`UpSetDelayed"%string);
  (BOP_Map, "System`Map"%string); (BOP_Rule, "System`Rule"%string);
  (BOP_Apply, "System`Apply"%string); (BOP_Condition, "System`Condition"%string);
  (BOP_ReplaceAll, "System`ReplaceAll"%string); (BOP_RuleDelayed, "System`RuleDelayed"%string);
  (BOP_ReplaceRepeated, "System`ReplaceRepeated"%string); (BOP_AddTo, "System`AddTo"%string);
  (BOP_TimesBy, "System`TimesBy"%string); (BOP_SubtractFrom, "System`SubtractFrom"%string);
  (BOP_DivideBy, "System`DivideBy"%string); (BOP_TwoWayRule, "System`TwoWayRule"%string);
  (BOP_MapAll, "System`MapAll"%string); (BOP_CodeParser_BinaryAt, "CodeParser`BinaryAt"%string);
  (BOP_MapApply, "System`MapApply"%string); (BOP_CodeParser_BinarySlashSlash, "CodeParser`BinarySlashSlash"%string);
  (BOP_PatternTest, "System`PatternTest"%string); (BOP_Function, "System`Function"%string);
  (BOP_ApplyTo, "System`ApplyTo"%string); (BOP_Implies, "System`Implies"%string);
  (BOP_RoundImplies, "System`RoundImplies"%string); (BOP_PlusMinus, "System`PlusMinus"%string);
  (BOP_DirectedEdge, "System`DirectedEdge"%string); (BOP_UndirectedEdge, "System`UndirectedEdge"%string);
  (BOP_MinusPlus, "System`MinusPlus"%string); (BOP_CircleMinus, "System`CircleMinus"%string);
  (BOP_SuchThat, "System`SuchThat"%string); (BOP_Perpendicular, "System`Perpendicular"%string);
  (BOP_Because, "System`Because"%string); (BOP_Therefore, "System`Therefore"%string);
  (BOP_RightTee, "System`RightTee"%string); (BOP_LeftTee, "System`LeftTee"%string);
  (BOP_DoubleRightTee, "System`DoubleRightTee"%string); (BOP_DoubleLeftTee, "System`DoubleLeftTee"%string);
  (BOP_UpTee, "System`UpTee"%string); (BOP_DownTee, "System`DownTee"%string);
  (BOP_Application, "System`Application"%string)
].
Definition BOP_FROM : list (string * Z) := [
  ("System`Pattern"%string, BOP_Pattern); ("System`Optional"%string, BOP_Optional);
  ("System`Set"%string, BOP_Set); ("System`SetDelayed"%string, BOP_SetDelayed);
  ("System`Unset"%string, BOP_Unset); ("System`Put"%string, BOP_Put);
  ("System`PutAppend"%string, BOP_PutAppend); ("System`Span"%string, BOP_Span);
  ("System`Divide"%string, BOP_Divide); ("System`Power"%string, BOP_Power);
  ("System`UpSet"%string, BOP_UpSet); ("System`UpSetDelayed"%string, BOP_UpSetDelayed);
  ("System`Map"%string, BOP_Map); ("System`Rule"%string, BOP_Rule);
  ("System`Apply"%string, BOP_Apply); ("System`Condition"%string, BOP_Condition);
  ("System`ReplaceAll"%string, BOP_ReplaceAll); ("System`RuleDelayed"%string, BOP_RuleDelayed);
  ("System`ReplaceRepeated"%string, BOP_ReplaceRepeated); ("System`AddTo"%string, BOP_AddTo);
  ("System`TimesBy"%string, BOP_TimesBy); ("System`SubtractFrom"%string, BOP_SubtractFrom);
  ("System`DivideBy"%string, BOP_DivideBy); ("System`TwoWayRule"%string, BOP_TwoWayRule);
  ("System`MapAll"%string, BOP_MapAll); ("CodeParser`BinaryAt"%string, BOP_CodeParser_BinaryAt);
  ("System`MapApply"%string, BOP_MapApply); ("CodeParser`BinarySlashSlash"%string, BOP_CodeParser_BinarySlashSlash);
  ("System`PatternTest"%string, BOP_PatternTest); ("System`Function"%string, BOP_Function);
  ("System`ApplyTo"%string, BOP_ApplyTo); ("System`Implies"%string, BOP_Implies);
  ("System`RoundImplies"%string, BOP_RoundImplies); ("System`PlusMinus"%string, BOP_PlusMinus);
  ("System`DirectedEdge"%string, BOP_DirectedEdge); ("System`UndirectedEdge"%string, BOP_UndirectedEdge);
  ("System`MinusPlus"%string, BOP_MinusPlus); ("System`CircleMinus"%string, BOP_CircleMinus);
  ("System`SuchThat"%string, BOP_SuchThat); ("System`Perpendicular"%string, BOP_Perpendicular);
  ("System`Because"%string, BOP_Because); ("System`Therefore"%string, BOP_Therefore);
  ("System`RightTee"%string, BOP_RightTee); ("System`LeftTee"%string, BOP_LeftTee);
  ("System`DoubleRightTee"%string, BOP_DoubleRightTee); ("System`DoubleLeftTee"%string, BOP_DoubleLeftTee);
  ("System`UpTee"%string, BOP_UpTee); ("System`DownTee"%string, BOP_DownTee);
  ("System`Application"%string, BOP_Application)
].

(** TernaryOperator::to_symbol and try_from_symbol, match arms in source order *)
Definition TOP_TO : list (Z * string) := [
  (TOP_CodeParser_TernaryTilde, "CodeParser`TernaryTilde"%string); (TOP_CodeParser_TernaryOptionalPattern, "CodeParser`TernaryOptionalPattern"%string);
  (TOP_TagSet, "System`TagSet"%string); (TOP_TagSetDelayed, "System`TagSetDelayed"%string);
  (TOP_TagUnset, "System`TagUnset"%string); (TOP_Span, "System`Span"%string)
].
Definition TOP_FROM : list (string * Z) := [
  ("CodeParser`TernaryTilde"%string, TOP_CodeParser_TernaryTilde); ("CodeParser`TernaryOptionalPattern"%string, TOP_CodeParser_TernaryOptionalPattern);
  ("System`TagSet"%string, TOP_TagSet); ("System`TagSetDelayed"%string, TOP_TagSetDelayed);
  ("System`TagUnset"%string, TOP_TagUnset); ("System`Span"%string, TOP_Span)
].

(** PrefixBinaryOperator::to_symbol and try_from_symbol, match arms in source order *)
Definition PBOP_TO : list (Z * string) := [
  (PBOP_Integrate, "System`Integrate"%string); (PBOP_ContourIntegral, "System`ContourIntegral"%string);
  (PBOP_DoubleContourIntegral, "System`DoubleContourIntegral"%string); (PBOP_ClockwiseContourIntegral, "System`ClockwiseContourIntegral"%string);
  (PBOP_CounterClockwiseContourIntegral, "System`CounterClockwiseContourIntegral"%string)
].
Definition PBOP_FROM : list (string * Z) := [
  ("System`Integrate"%string, PBOP_Integrate); ("System`ContourIntegral"%string, PBOP_ContourIntegral);
  ("System`DoubleContourIntegral"%string, PBOP_DoubleContourIntegral); ("System`ClockwiseContourIntegral"%string, PBOP_ClockwiseContourIntegral);
  ("System`CounterClockwiseContourIntegral"%string, PBOP_CounterClockwiseContourIntegral)
].

(** CompoundOperator::to_symbol and try_from_symbol, match arms in source order *)
Definition COP_TO : list (Z * string) := [
  (COP_Blank, "System`Blank"%string); (COP_BlankSequence, "System`BlankSequence"%string);
  (COP_BlankNullSequence, "System`BlankNullSequence"%string); (COP_Slot, "System`Slot"%string);
  (COP_SlotSequence, "System`SlotSequence"%string); (COP_Out, "System`Out"%string);
  (COP_CodeParser_PatternBlank, "CodeParser`PatternBlank"%string); (COP_CodeParser_PatternBlankSequence, "CodeParser`PatternBlankSequence"%string);
  (COP_CodeParser_PatternBlankNullSequence, "CodeParser`PatternBlankNullSequence"%string); (COP_CodeParser_PatternOptionalDefault, "CodeParser`PatternOptionalDefault"%string)
].
Definition COP_FROM : list (string * Z) := [
  ("System`Blank"%string, COP_Blank); ("System`BlankSequence"%string, COP_BlankSequence);
  ("System`BlankNullSequence"%string, COP_BlankNullSequence); ("System`Slot"%string, COP_Slot);
  ("System`SlotSequence"%string, COP_SlotSequence); ("System`Out"%string, COP_Out);
  ("CodeParser`PatternBlank"%string, COP_CodeParser_PatternBlank); ("CodeParser`PatternBlankSequence"%string, COP_CodeParser_PatternBlankSequence);
  ("CodeParser`PatternBlankNullSequence"%string, COP_CodeParser_PatternBlankNullSequence); ("CodeParser`PatternOptionalDefault"%string, COP_CodeParser_PatternOptionalDefault)
].

(** GroupOperator::to_symbol and try_from_symbol, match arms in source order *)
Definition GOP_TO : list (Z * string) := [
  (GOP_Token_Comment, "Token`Comment"%string); (GOP_CodeParser_Comment, "CodeParser`Comment"%string);
  (GOP_CodeParser_GroupParen, "CodeParser`GroupParen"%string); (GOP_CodeParser_GroupSquare, "CodeParser`GroupSquare"%string);
  (GOP_List, "System`List"%string); (GOP_Association, "System`Association"%string);
  (GOP_CodeParser_GroupTypeSpecifier, "CodeParser`GroupTypeSpecifier"%string); (GOP_AngleBracket, "System`AngleBracket"%string);
  (GOP_Ceiling, "System`Ceiling"%string); (GOP_Floor, "System`Floor"%string);
  (GOP_CodeParser_GroupDoubleBracket, "CodeParser`GroupDoubleBracket"%string); (GOP_BracketingBar, "System`BracketingBar"%string);
  (GOP_DoubleBracketingBar, "System`DoubleBracketingBar"%string); (GOP_CurlyQuote, "System`CurlyQuote"%string);
  (GOP_CurlyDoubleQuote, "System`CurlyDoubleQuote"%string)
].
Definition GOP_FROM : list (string * Z) := [
  ("Token`Comment"%string, GOP_Token_Comment); ("CodeParser`Comment"%string, GOP_CodeParser_Comment);
  ("CodeParser`GroupParen"%string, GOP_CodeParser_GroupParen); ("CodeParser`GroupSquare"%string, GOP_CodeParser_GroupSquare);
  ("System`List"%string, GOP_List); ("System`Association"%string, GOP_Association);
  ("CodeParser`GroupTypeSpecifier"%string, GOP_CodeParser_GroupTypeSpecifier); ("System`AngleBracket"%string, GOP_AngleBracket);
  ("System`Ceiling"%string, GOP_Ceiling); ("System`Floor"%string, GOP_Floor);
  ("CodeParser`GroupDoubleBracket"%string, GOP_CodeParser_GroupDoubleBracket); ("System`BracketingBar"%string, GOP_BracketingBar);
  ("System`DoubleBracketingBar"%string, GOP_DoubleBracketingBar); ("System`CurlyQuote"%string, GOP_CurlyQuote);
  ("System`CurlyDoubleQuote"%string, GOP_CurlyDoubleQuote)
].

(** CallOperator::to_symbol and try_from_symbol, match arms in source order *)
Definition CALLOP_TO : list (Z * string) := [
  (CALLOP_CodeParser_GroupSquare, "CodeParser`GroupSquare"%string); (CALLOP_CodeParser_GroupDoubleBracket, "CodeParser`GroupDoubleBracket"%string);
  (CALLOP_CodeParser_GroupTypeSpecifier, "CodeParser`GroupTypeSpecifier"%string)
].
Definition CALLOP_FROM : list (string * Z) := [
  ("CodeParser`GroupSquare"%string, CALLOP_CodeParser_GroupSquare); ("CodeParser`GroupDoubleBracket"%string, CALLOP_CodeParser_GroupDoubleBracket);
  ("CodeParser`GroupTypeSpecifier"%string, CALLOP_CodeParser_GroupTypeSpecifier)
].
