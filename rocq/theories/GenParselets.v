(** GENERATED by tools/gen_tables.py from /repo/crates/wolfram-parser/src/parse/token_parselets.rs.  Do not edit. *)
From Coq Require Import ZArith List String.
From Verif Require Import GenTokenKind GenPrec GenOps Parselets.
Import ListNotations.
Local Open Scope Z_scope.


(** match arms in source order; default arm: &PrefixUnhandledParselet {} *)
Definition PREFIX_PARSELETS : list (Z * prefix_parselet) := [
  (TK_EndOfFile, PP_PrefixEndOfFile); (TK_String, PP_Leaf);
  (TK_Integer, PP_Leaf); (TK_Real, PP_Leaf);
  (TK_Rational, PP_Leaf); (TK_LinearSyntaxBlob, PP_Leaf);
  (TK_Unknown, PP_PrefixError); (TK_Whitespace, PP_PrefixError);
  (TK_InternalNewline, PP_PrefixError); (TK_Comment, PP_PrefixError);
  (TK_Error_ExpectedEqual, PP_PrefixError); (TK_Error_Number, PP_PrefixError);
  (TK_Error_UnhandledCharacter, PP_PrefixError); (TK_Error_ExpectedLetterlike, PP_PrefixError);
  (TK_Error_Aborted, PP_PrefixError); (TK_Error_ExpectedOperand, PP_PrefixError);
  (TK_Error_ExpectedTag, PP_PrefixError); (TK_Error_ExpectedFile, PP_PrefixError);
  (TK_Error_UnterminatedComment, PP_PrefixError); (TK_Error_UnterminatedString, PP_PrefixError);
  (TK_Error_UnterminatedFileString, PP_PrefixError); (TK_Error_UnterminatedLinearSyntaxBlob, PP_PrefixError);
  (TK_Error_UnsupportedToken, PP_PrefixError); (TK_Error_UnexpectedCloser, PP_PrefixError);
  (TK_Error_UnsafeCharacterEncoding, PP_PrefixError); (TK_Error_UnexpectedCommentCloser, PP_PrefixError);
  (TK_BarGreater, PP_PrefixCloser); (TK_CloseCurly, PP_PrefixCloser);
  (TK_CloseParen, PP_PrefixCloser); (TK_CloseSquare, PP_PrefixCloser);
  (TK_LongName_CloseCurlyDoubleQuote, PP_PrefixCloser); (TK_LongName_CloseCurlyQuote, PP_PrefixCloser);
  (TK_LongName_RightAngleBracket, PP_PrefixCloser); (TK_LongName_RightAssociation, PP_PrefixCloser);
  (TK_LongName_RightBracketingBar, PP_PrefixCloser); (TK_LongName_RightCeiling, PP_PrefixCloser);
  (TK_LongName_RightDoubleBracket, PP_PrefixCloser); (TK_LongName_RightDoubleBracketingBar, PP_PrefixCloser);
  (TK_LongName_RightFloor, PP_PrefixCloser); (TK_Minus, PP_PrefixOperator PREC_PREFIX_MINUS PREOP_Minus);
  (TK_Plus, PP_PrefixOperator PREC_PREFIX_PLUS PREOP_Plus); (TK_Bang, PP_PrefixOperator PREC_PREFIX_BANG PREOP_Not);
  (TK_PlusPlus, PP_PrefixOperator PREC_PREFIX_PLUSPLUS PREOP_PreIncrement); (TK_MinusMinus, PP_PrefixOperator PREC_PREFIX_MINUSMINUS PREOP_PreDecrement);
  (TK_BangBang, PP_PrefixOperator PREC_FAKE_PREFIX_BANGBANG PREOP_CodeParser_PrefixNot2); (TK_LongName_PlusMinus, PP_PrefixOperator PREC_PREFIX_LONGNAME_PLUSMINUS PREOP_PlusMinus);
  (TK_LongName_Sum, PP_PrefixOperator PREC_LONGNAME_SUM PREOP_Sum); (TK_LongName_Not, PP_PrefixOperator PREC_LONGNAME_NOT PREOP_Not);
  (TK_LongName_Sqrt, PP_PrefixOperator PREC_LONGNAME_SQRT PREOP_Sqrt); (TK_LongName_MinusPlus, PP_PrefixOperator PREC_PREFIX_LONGNAME_MINUSPLUS PREOP_MinusPlus);
  (TK_LongName_DifferentialD, PP_PrefixOperator PREC_LONGNAME_DIFFERENTIALD PREOP_DifferentialD); (TK_LongName_CapitalDifferentialD, PP_PrefixOperator PREC_LONGNAME_CAPITALDIFFERENTIALD PREOP_CapitalDifferentialD);
  (TK_LongName_Minus, PP_PrefixOperator PREC_PREFIX_LONGNAME_MINUS PREOP_Minus); (TK_LongName_Del, PP_PrefixOperator PREC_LONGNAME_DEL PREOP_Del);
  (TK_LongName_Square, PP_PrefixOperator PREC_LONGNAME_SQUARE PREOP_Square); (TK_Comma, PP_PrefixComma);
  (TK_LongName_InvisibleComma, PP_PrefixComma); (TK_LongName_Product, PP_PrefixOperator PREC_LONGNAME_PRODUCT PREOP_Product);
  (TK_LongName_ContinuedFractionK, PP_PrefixOperator PREC_LONGNAME_CONTINUEDFRACTIONK PREOP_ContinuedFractionK); (TK_LongName_CircleTimes, PP_PrefixOperator PREC_PREFIX_LONGNAME_CIRCLETIMES PREOP_CircleTimes);
  (TK_LongName_ForAll, PP_PrefixOperator PREC_LONGNAME_FORALL PREOP_ForAll); (TK_LongName_Exists, PP_PrefixOperator PREC_LONGNAME_EXISTS PREOP_Exists);
  (TK_LongName_NotExists, PP_PrefixOperator PREC_LONGNAME_NOTEXISTS PREOP_NotExists); (TK_LongName_Coproduct, PP_PrefixOperator PREC_PREFIX_LONGNAME_COPRODUCT PREOP_Coproduct);
  (TK_LongName_Piecewise, PP_PrefixOperator PREC_LONGNAME_PIECEWISE PREOP_Piecewise); (TK_LongName_InvisiblePrefixScriptBase, PP_PrefixOperator PREC_LONGNAME_INVISIBLEPREFIXSCRIPTBASE PREOP_InvisiblePrefixScriptBase);
  (TK_LongName_ExpectationE, PP_PrefixOperator PREC_LONGNAME_EXPECTATIONE PREOP_ExpectationE); (TK_LongName_CubeRoot, PP_PrefixOperator PREC_LONGNAME_CUBEROOT PREOP_CubeRoot);
  (TK_LongName_ProbabilityPr, PP_PrefixOperator PREC_LONGNAME_PROBABILITYPR PREOP_ProbabilityPr); (TK_LinearSyntax_Bang, PP_PrefixOperator PREC_LINEARSYNTAX_BANG PREOP_CodeParser_PrefixLinearSyntaxBang);
  (TK_LinearSyntax_At, PP_PrefixUnsupportedToken); (TK_LinearSyntax_Amp, PP_PrefixUnsupportedToken);
  (TK_LinearSyntax_Star, PP_PrefixUnsupportedToken); (TK_LinearSyntax_Under, PP_PrefixUnsupportedToken);
  (TK_LinearSyntax_Caret, PP_PrefixUnsupportedToken); (TK_LinearSyntax_Space, PP_PrefixUnsupportedToken);
  (TK_LinearSyntax_Percent, PP_PrefixUnsupportedToken); (TK_LinearSyntax_Plus, PP_PrefixUnsupportedToken);
  (TK_LinearSyntax_Slash, PP_PrefixUnsupportedToken); (TK_LinearSyntax_BackTick, PP_PrefixUnsupportedToken);
  (TK_LinearSyntax_CloseParen, PP_PrefixUnsupportedToken); (TK_OpenParen, PP_Group TK_OpenParen GOP_CodeParser_GroupParen);
  (TK_OpenSquare, PP_Group TK_OpenSquare GOP_CodeParser_GroupSquare); (TK_OpenCurly, PP_Group TK_OpenCurly GOP_List);
  (TK_LessBar, PP_Group TK_LessBar GOP_Association); (TK_ColonColonOpenSquare, PP_Group TK_ColonColonOpenSquare GOP_CodeParser_GroupTypeSpecifier);
  (TK_LongName_LeftAngleBracket, PP_Group TK_LongName_LeftAngleBracket GOP_AngleBracket); (TK_LongName_LeftCeiling, PP_Group TK_LongName_LeftCeiling GOP_Ceiling);
  (TK_LongName_LeftFloor, PP_Group TK_LongName_LeftFloor GOP_Floor); (TK_LongName_LeftDoubleBracket, PP_Group TK_LongName_LeftDoubleBracket GOP_CodeParser_GroupDoubleBracket);
  (TK_LongName_LeftBracketingBar, PP_Group TK_LongName_LeftBracketingBar GOP_BracketingBar); (TK_LongName_LeftDoubleBracketingBar, PP_Group TK_LongName_LeftDoubleBracketingBar GOP_DoubleBracketingBar);
  (TK_LongName_LeftAssociation, PP_Group TK_LongName_LeftAssociation GOP_Association); (TK_LongName_OpenCurlyQuote, PP_Group TK_LongName_OpenCurlyQuote GOP_CurlyQuote);
  (TK_LongName_OpenCurlyDoubleQuote, PP_Group TK_LongName_OpenCurlyDoubleQuote GOP_CurlyDoubleQuote); (TK_Symbol, PP_Symbol);
  (TK_Under, PP_Under COP_Blank COP_CodeParser_PatternBlank); (TK_UnderUnder, PP_Under COP_BlankSequence COP_CodeParser_PatternBlankSequence);
  (TK_UnderUnderUnder, PP_Under COP_BlankNullSequence COP_CodeParser_PatternBlankNullSequence); (TK_UnderDot, PP_UnderDot);
  (TK_Hash, PP_Hash); (TK_HashHash, PP_HashHash);
  (TK_Percent, PP_Percent); (TK_PercentPercent, PP_Leaf);
  (TK_SemiSemi, PP_SemiSemi); (TK_LongName_Integral, PP_Integral PBOP_Integrate PREOP_Integral);
  (TK_LongName_ContourIntegral, PP_Integral PBOP_ContourIntegral PREOP_ContourIntegral); (TK_LongName_DoubleContourIntegral, PP_Integral PBOP_DoubleContourIntegral PREOP_DoubleContourIntegral);
  (TK_LongName_ClockwiseContourIntegral, PP_Integral PBOP_ClockwiseContourIntegral PREOP_ClockwiseContourIntegral); (TK_LongName_CounterClockwiseContourIntegral, PP_Integral PBOP_CounterClockwiseContourIntegral PREOP_CounterClockwiseContourIntegral);
  (TK_LessLess, PP_LessLess); (TK_QuestionQuestion, PP_PrefixUnsupportedToken);
  (TK_LongName_Limit, PP_PrefixUnsupportedToken); (TK_LongName_MaxLimit, PP_PrefixUnsupportedToken);
  (TK_LongName_MinLimit, PP_PrefixUnsupportedToken); (TK_LongName_AutoLeftMatch, PP_PrefixUnsupportedToken);
  (TK_LongName_AutoRightMatch, PP_PrefixUnsupportedToken); (TK_LongName_DiscreteShift, PP_PrefixUnsupportedToken);
  (TK_LongName_DifferenceDelta, PP_PrefixUnsupportedToken); (TK_LongName_DiscreteRatio, PP_PrefixUnsupportedToken);
  (TK_LongName_PartialD, PP_PrefixUnsupportedToken)
].

(** match arms in source order; default arm: &InfixImplicitTimesParselet {} *)
Definition INFIX_PARSELETS : list (Z * infix_parselet) := [
  (TK_EndOfFile, IP_InfixAssertFalse); (TK_Unknown, IP_InfixAssertFalse);
  (TK_Whitespace, IP_InfixAssertFalse); (TK_InternalNewline, IP_InfixAssertFalse);
  (TK_Comment, IP_InfixAssertFalse); (TK_ToplevelNewline, IP_InfixToplevelNewline);
  (TK_Error_ExpectedEqual, IP_InfixAssertFalse); (TK_Error_Number, IP_InfixAssertFalse);
  (TK_Error_UnhandledCharacter, IP_InfixAssertFalse); (TK_Error_ExpectedLetterlike, IP_InfixAssertFalse);
  (TK_Error_Aborted, IP_InfixAssertFalse); (TK_Error_ExpectedOperand, IP_InfixAssertFalse);
  (TK_Error_ExpectedTag, IP_InfixAssertFalse); (TK_Error_ExpectedFile, IP_InfixAssertFalse);
  (TK_Error_UnterminatedComment, IP_InfixAssertFalse); (TK_Error_UnterminatedString, IP_InfixAssertFalse);
  (TK_Error_UnterminatedFileString, IP_InfixAssertFalse); (TK_Error_UnterminatedLinearSyntaxBlob, IP_InfixAssertFalse);
  (TK_Error_UnsupportedToken, IP_InfixAssertFalse); (TK_Error_UnexpectedCloser, IP_InfixAssertFalse);
  (TK_Error_UnsafeCharacterEncoding, IP_InfixAssertFalse); (TK_Error_UnexpectedCommentCloser, IP_InfixAssertFalse);
  (TK_BarGreater, IP_InfixAssertFalse); (TK_CloseCurly, IP_InfixAssertFalse);
  (TK_CloseParen, IP_InfixAssertFalse); (TK_CloseSquare, IP_InfixAssertFalse);
  (TK_LongName_CloseCurlyDoubleQuote, IP_InfixAssertFalse); (TK_LongName_CloseCurlyQuote, IP_InfixAssertFalse);
  (TK_LongName_RightAngleBracket, IP_InfixAssertFalse); (TK_LongName_RightAssociation, IP_InfixAssertFalse);
  (TK_LongName_RightBracketingBar, IP_InfixAssertFalse); (TK_LongName_RightCeiling, IP_InfixAssertFalse);
  (TK_LongName_RightDoubleBracket, IP_InfixAssertFalse); (TK_LongName_RightDoubleBracketingBar, IP_InfixAssertFalse);
  (TK_LongName_RightFloor, IP_InfixAssertFalse); (TK_LongName_DifferentialD, IP_InfixDifferentialD);
  (TK_LongName_CapitalDifferentialD, IP_InfixDifferentialD); (TK_Slash, IP_BinaryOperator PREC_SLASH BOP_Divide);
  (TK_Caret, IP_BinaryOperator PREC_CARET BOP_Power); (TK_CaretEqual, IP_BinaryOperator PREC_CARETEQUAL BOP_UpSet);
  (TK_CaretColonEqual, IP_BinaryOperator PREC_CARETCOLONEQUAL BOP_UpSetDelayed); (TK_SlashAt, IP_BinaryOperator PREC_SLASHAT BOP_Map);
  (TK_MinusGreater, IP_BinaryOperator PREC_MINUSGREATER BOP_Rule); (TK_AtAt, IP_BinaryOperator PREC_ATAT BOP_Apply);
  (TK_SlashSemi, IP_BinaryOperator PREC_SLASHSEMI BOP_Condition); (TK_SlashDot, IP_BinaryOperator PREC_SLASHDOT BOP_ReplaceAll);
  (TK_ColonGreater, IP_BinaryOperator PREC_COLONGREATER BOP_RuleDelayed); (TK_SlashSlashDot, IP_BinaryOperator PREC_SLASHSLASHDOT BOP_ReplaceRepeated);
  (TK_PlusEqual, IP_BinaryOperator PREC_PLUSEQUAL BOP_AddTo); (TK_StarEqual, IP_BinaryOperator PREC_STAREQUAL BOP_TimesBy);
  (TK_MinusEqual, IP_BinaryOperator PREC_MINUSEQUAL BOP_SubtractFrom); (TK_SlashEqual, IP_BinaryOperator PREC_SLASHEQUAL BOP_DivideBy);
  (TK_LessMinusGreater, IP_BinaryOperator PREC_LESSMINUSGREATER BOP_TwoWayRule); (TK_SlashSlashAt, IP_BinaryOperator PREC_SLASHSLASHAT BOP_MapAll);
  (TK_At, IP_BinaryOperator PREC_AT BOP_CodeParser_BinaryAt); (TK_AtAtAt, IP_BinaryOperator PREC_ATATAT BOP_MapApply);
  (TK_SlashSlash, IP_BinaryOperator PREC_SLASHSLASH BOP_CodeParser_BinarySlashSlash); (TK_Question, IP_BinaryOperator PREC_INFIX_QUESTION BOP_PatternTest);
  (TK_BarMinusGreater, IP_BinaryOperator PREC_BARMINUSGREATER BOP_Function); (TK_SlashSlashEqual, IP_BinaryOperator PREC_SLASHSLASHEQUAL BOP_ApplyTo);
  (TK_LongName_Divide, IP_BinaryOperator PREC_LONGNAME_DIVIDE BOP_Divide); (TK_LongName_DivisionSlash, IP_BinaryOperator PREC_LONGNAME_DIVISIONSLASH BOP_Divide);
  (TK_LongName_Implies, IP_BinaryOperator PREC_LONGNAME_IMPLIES BOP_Implies); (TK_LongName_RoundImplies, IP_BinaryOperator PREC_LONGNAME_ROUNDIMPLIES BOP_RoundImplies);
  (TK_LongName_PlusMinus, IP_BinaryOperator PREC_INFIX_LONGNAME_PLUSMINUS BOP_PlusMinus); (TK_LongName_DirectedEdge, IP_BinaryOperator PREC_LONGNAME_DIRECTEDEDGE BOP_DirectedEdge);
  (TK_LongName_Rule, IP_BinaryOperator PREC_LONGNAME_RULE BOP_Rule); (TK_LongName_RuleDelayed, IP_BinaryOperator PREC_LONGNAME_RULEDELAYED BOP_RuleDelayed);
  (TK_LongName_UndirectedEdge, IP_BinaryOperator PREC_LONGNAME_UNDIRECTEDEDGE BOP_UndirectedEdge); (TK_LongName_Function, IP_BinaryOperator PREC_LONGNAME_FUNCTION BOP_Function);
  (TK_LongName_MinusPlus, IP_BinaryOperator PREC_INFIX_LONGNAME_MINUSPLUS BOP_MinusPlus); (TK_LongName_TwoWayRule, IP_BinaryOperator PREC_LONGNAME_TWOWAYRULE BOP_TwoWayRule);
  (TK_LongName_InvisibleApplication, IP_BinaryOperator PREC_LONGNAME_INVISIBLEAPPLICATION BOP_CodeParser_BinaryAt); (TK_LongName_CircleMinus, IP_BinaryOperator PREC_LONGNAME_CIRCLEMINUS BOP_CircleMinus);
  (TK_LongName_SuchThat, IP_BinaryOperator PREC_LONGNAME_SUCHTHAT BOP_SuchThat); (TK_LongName_Perpendicular, IP_BinaryOperator PREC_LONGNAME_PERPENDICULAR BOP_Perpendicular);
  (TK_LongName_Because, IP_BinaryOperator PREC_LONGNAME_BECAUSE BOP_Because); (TK_LongName_Therefore, IP_BinaryOperator PREC_LONGNAME_THEREFORE BOP_Therefore);
  (TK_LongName_RightTee, IP_BinaryOperator PREC_LONGNAME_RIGHTTEE BOP_RightTee); (TK_LongName_LeftTee, IP_BinaryOperator PREC_LONGNAME_LEFTTEE BOP_LeftTee);
  (TK_LongName_DoubleRightTee, IP_BinaryOperator PREC_LONGNAME_DOUBLERIGHTTEE BOP_DoubleRightTee); (TK_LongName_DoubleLeftTee, IP_BinaryOperator PREC_LONGNAME_DOUBLELEFTTEE BOP_DoubleLeftTee);
  (TK_LongName_UpTee, IP_BinaryOperator PREC_LONGNAME_UPTEE BOP_UpTee); (TK_LongName_DownTee, IP_BinaryOperator PREC_LONGNAME_DOWNTEE BOP_DownTee);
  (TK_LongName_Application, IP_BinaryOperator PREC_LONGNAME_APPLICATION BOP_Application); (TK_Minus, IP_InfixOperator PREC_INFIX_MINUS IOP_Plus);
  (TK_EqualEqualEqual, IP_InfixOperator PREC_EQUALEQUALEQUAL IOP_SameQ); (TK_EqualBangEqual, IP_InfixOperator PREC_EQUALBANGEQUAL IOP_UnsameQ);
  (TK_Plus, IP_InfixOperator PREC_INFIX_PLUS IOP_Plus); (TK_Dot, IP_InfixOperator PREC_DOT IOP_Dot);
  (TK_StarStar, IP_InfixOperator PREC_STARSTAR IOP_NonCommutativeMultiply); (TK_AmpAmp, IP_InfixOperator PREC_AMPAMP IOP_And);
  (TK_BarBar, IP_InfixOperator PREC_BARBAR IOP_Or); (TK_Bar, IP_InfixOperator PREC_BAR IOP_Alternatives);
  (TK_LessGreater, IP_InfixOperator PREC_LESSGREATER IOP_StringJoin); (TK_TildeTilde, IP_InfixOperator PREC_TILDETILDE IOP_StringExpression);
  (TK_AtStar, IP_InfixOperator PREC_ATSTAR IOP_Composition); (TK_SlashStar, IP_InfixOperator PREC_SLASHSTAR IOP_RightComposition);
  (TK_Star, IP_Times); (TK_LongName_Times, IP_Times);
  (TK_LongName_InvisibleTimes, IP_Times); (TK_Fake_ImplicitTimes, IP_Times);
  (TK_LongName_Element, IP_InfixOperator PREC_CLASS_SETRELATIONS IOP_Element); (TK_LongName_Subset, IP_InfixOperator PREC_CLASS_SETRELATIONS IOP_Subset);
  (TK_LongName_Superset, IP_InfixOperator PREC_CLASS_SETRELATIONS IOP_Superset); (TK_LongName_SubsetEqual, IP_InfixOperator PREC_CLASS_SETRELATIONS IOP_SubsetEqual);
  (TK_LongName_SupersetEqual, IP_InfixOperator PREC_CLASS_SETRELATIONS IOP_SupersetEqual); (TK_LongName_NotElement, IP_InfixOperator PREC_CLASS_SETRELATIONS IOP_NotElement);
  (TK_LongName_NotSubset, IP_InfixOperator PREC_CLASS_SETRELATIONS IOP_NotSubset); (TK_LongName_NotSuperset, IP_InfixOperator PREC_CLASS_SETRELATIONS IOP_NotSuperset);
  (TK_LongName_NotSubsetEqual, IP_InfixOperator PREC_CLASS_SETRELATIONS IOP_NotSubsetEqual); (TK_LongName_NotSupersetEqual, IP_InfixOperator PREC_CLASS_SETRELATIONS IOP_NotSupersetEqual);
  (TK_LongName_SquareSubset, IP_InfixOperator PREC_CLASS_SETRELATIONS IOP_SquareSubset); (TK_LongName_SquareSuperset, IP_InfixOperator PREC_CLASS_SETRELATIONS IOP_SquareSuperset);
  (TK_LongName_NotSquareSubset, IP_InfixOperator PREC_CLASS_SETRELATIONS IOP_NotSquareSubset); (TK_LongName_NotSquareSuperset, IP_InfixOperator PREC_CLASS_SETRELATIONS IOP_NotSquareSuperset);
  (TK_LongName_SquareSubsetEqual, IP_InfixOperator PREC_CLASS_SETRELATIONS IOP_SquareSubsetEqual); (TK_LongName_SquareSupersetEqual, IP_InfixOperator PREC_CLASS_SETRELATIONS IOP_SquareSupersetEqual);
  (TK_LongName_NotSquareSubsetEqual, IP_InfixOperator PREC_CLASS_SETRELATIONS IOP_NotSquareSubsetEqual); (TK_LongName_NotSquareSupersetEqual, IP_InfixOperator PREC_CLASS_SETRELATIONS IOP_NotSquareSupersetEqual);
  (TK_LongName_ReverseElement, IP_InfixOperator PREC_CLASS_SETRELATIONS IOP_ReverseElement); (TK_LongName_NotReverseElement, IP_InfixOperator PREC_CLASS_SETRELATIONS IOP_NotReverseElement);
  (TK_LongName_Distributed, IP_InfixOperator PREC_CLASS_SETRELATIONS IOP_Distributed); (TK_LongName_ImplicitPlus, IP_InfixOperator PREC_LONGNAME_IMPLICITPLUS IOP_Plus);
  (TK_LongName_And, IP_InfixOperator PREC_LONGNAME_AND IOP_And); (TK_LongName_Or, IP_InfixOperator PREC_LONGNAME_OR IOP_Or);
  (TK_LongName_Xor, IP_InfixOperator PREC_LONGNAME_XOR IOP_Xor); (TK_LongName_Nand, IP_InfixOperator PREC_LONGNAME_NAND IOP_Nand);
  (TK_LongName_Nor, IP_InfixOperator PREC_LONGNAME_NOR IOP_Nor); (TK_LongName_LeftArrow, IP_InfixOperator PREC_CLASS_HORIZONTALARROWS IOP_LeftArrow);
  (TK_LongName_RightArrow, IP_InfixOperator PREC_CLASS_HORIZONTALARROWS IOP_RightArrow); (TK_LongName_LeftRightArrow, IP_InfixOperator PREC_CLASS_HORIZONTALARROWS IOP_LeftRightArrow);
  (TK_LongName_LeftTeeArrow, IP_InfixOperator PREC_CLASS_HORIZONTALARROWS IOP_LeftTeeArrow); (TK_LongName_RightTeeArrow, IP_InfixOperator PREC_CLASS_HORIZONTALARROWS IOP_RightTeeArrow);
  (TK_LongName_RightArrowLeftArrow, IP_InfixOperator PREC_CLASS_HORIZONTALARROWS IOP_RightArrowLeftArrow); (TK_LongName_LeftArrowRightArrow, IP_InfixOperator PREC_CLASS_HORIZONTALARROWS IOP_LeftArrowRightArrow);
  (TK_LongName_DoubleLeftArrow, IP_InfixOperator PREC_CLASS_HORIZONTALARROWS IOP_DoubleLeftArrow); (TK_LongName_DoubleRightArrow, IP_InfixOperator PREC_CLASS_HORIZONTALARROWS IOP_DoubleRightArrow);
  (TK_LongName_DoubleLeftRightArrow, IP_InfixOperator PREC_CLASS_HORIZONTALARROWS IOP_DoubleLeftRightArrow); (TK_LongName_LeftArrowBar, IP_InfixOperator PREC_CLASS_HORIZONTALARROWS IOP_LeftArrowBar);
  (TK_LongName_RightArrowBar, IP_InfixOperator PREC_CLASS_HORIZONTALARROWS IOP_RightArrowBar); (TK_LongName_ShortRightArrow, IP_InfixOperator PREC_CLASS_HORIZONTALARROWS IOP_ShortRightArrow);
  (TK_LongName_ShortLeftArrow, IP_InfixOperator PREC_CLASS_HORIZONTALARROWS IOP_ShortLeftArrow); (TK_LongName_UpperLeftArrow, IP_InfixOperator PREC_CLASS_DIAGONALARROWOPERATORS IOP_UpperLeftArrow);
  (TK_LongName_UpperRightArrow, IP_InfixOperator PREC_CLASS_DIAGONALARROWOPERATORS IOP_UpperRightArrow); (TK_LongName_LowerRightArrow, IP_InfixOperator PREC_CLASS_DIAGONALARROWOPERATORS IOP_LowerRightArrow);
  (TK_LongName_LowerLeftArrow, IP_InfixOperator PREC_CLASS_DIAGONALARROWOPERATORS IOP_LowerLeftArrow); (TK_LongName_LeftVector, IP_InfixOperator PREC_CLASS_VECTOROPERATORS IOP_LeftVector);
  (TK_LongName_RightVector, IP_InfixOperator PREC_CLASS_VECTOROPERATORS IOP_RightVector); (TK_LongName_LeftRightVector, IP_InfixOperator PREC_CLASS_VECTOROPERATORS IOP_LeftRightVector);
  (TK_LongName_LeftVectorBar, IP_InfixOperator PREC_CLASS_VECTOROPERATORS IOP_LeftVectorBar); (TK_LongName_RightVectorBar, IP_InfixOperator PREC_CLASS_VECTOROPERATORS IOP_RightVectorBar);
  (TK_LongName_LeftTeeVector, IP_InfixOperator PREC_CLASS_VECTOROPERATORS IOP_LeftTeeVector); (TK_LongName_RightTeeVector, IP_InfixOperator PREC_CLASS_VECTOROPERATORS IOP_RightTeeVector);
  (TK_LongName_DownLeftVector, IP_InfixOperator PREC_CLASS_VECTOROPERATORS IOP_DownLeftVector); (TK_LongName_DownRightVector, IP_InfixOperator PREC_CLASS_VECTOROPERATORS IOP_DownRightVector);
  (TK_LongName_DownLeftRightVector, IP_InfixOperator PREC_CLASS_VECTOROPERATORS IOP_DownLeftRightVector); (TK_LongName_DownLeftVectorBar, IP_InfixOperator PREC_CLASS_VECTOROPERATORS IOP_DownLeftVectorBar);
  (TK_LongName_DownRightVectorBar, IP_InfixOperator PREC_CLASS_VECTOROPERATORS IOP_DownRightVectorBar); (TK_LongName_DownLeftTeeVector, IP_InfixOperator PREC_CLASS_VECTOROPERATORS IOP_DownLeftTeeVector);
  (TK_LongName_DownRightTeeVector, IP_InfixOperator PREC_CLASS_VECTOROPERATORS IOP_DownRightTeeVector); (TK_LongName_UpArrow, IP_InfixOperator PREC_CLASS_VERTICALARROWOPERATORS IOP_UpArrow);
  (TK_LongName_DownArrow, IP_InfixOperator PREC_CLASS_VERTICALARROWOPERATORS IOP_DownArrow); (TK_LongName_UpDownArrow, IP_InfixOperator PREC_CLASS_VERTICALARROWOPERATORS IOP_UpDownArrow);
  (TK_LongName_UpTeeArrow, IP_InfixOperator PREC_CLASS_VERTICALARROWOPERATORS IOP_UpTeeArrow); (TK_LongName_DownTeeArrow, IP_InfixOperator PREC_CLASS_VERTICALARROWOPERATORS IOP_DownTeeArrow);
  (TK_LongName_UpArrowDownArrow, IP_InfixOperator PREC_CLASS_VERTICALARROWOPERATORS IOP_UpArrowDownArrow); (TK_LongName_DoubleUpArrow, IP_InfixOperator PREC_CLASS_VERTICALARROWOPERATORS IOP_DoubleUpArrow);
  (TK_LongName_DoubleDownArrow, IP_InfixOperator PREC_CLASS_VERTICALARROWOPERATORS IOP_DoubleDownArrow); (TK_LongName_DoubleUpDownArrow, IP_InfixOperator PREC_CLASS_VERTICALARROWOPERATORS IOP_DoubleUpDownArrow);
  (TK_LongName_DownArrowUpArrow, IP_InfixOperator PREC_CLASS_VERTICALARROWOPERATORS IOP_DownArrowUpArrow); (TK_LongName_LongLeftArrow, IP_InfixOperator PREC_CLASS_VERTICALARROWOPERATORS IOP_LongLeftArrow);
  (TK_LongName_LongRightArrow, IP_InfixOperator PREC_CLASS_VERTICALARROWOPERATORS IOP_LongRightArrow); (TK_LongName_LongLeftRightArrow, IP_InfixOperator PREC_CLASS_VERTICALARROWOPERATORS IOP_LongLeftRightArrow);
  (TK_LongName_DoubleLongLeftArrow, IP_InfixOperator PREC_CLASS_VERTICALARROWOPERATORS IOP_DoubleLongLeftArrow); (TK_LongName_DoubleLongRightArrow, IP_InfixOperator PREC_CLASS_VERTICALARROWOPERATORS IOP_DoubleLongRightArrow);
  (TK_LongName_DoubleLongLeftRightArrow, IP_InfixOperator PREC_CLASS_VERTICALARROWOPERATORS IOP_DoubleLongLeftRightArrow); (TK_LongName_UpArrowBar, IP_InfixOperator PREC_CLASS_VERTICALARROWOPERATORS IOP_UpArrowBar);
  (TK_LongName_DownArrowBar, IP_InfixOperator PREC_CLASS_VERTICALARROWOPERATORS IOP_DownArrowBar); (TK_LongName_ShortUpArrow, IP_InfixOperator PREC_CLASS_VERTICALARROWOPERATORS IOP_ShortUpArrow);
  (TK_LongName_ShortDownArrow, IP_InfixOperator PREC_CLASS_VERTICALARROWOPERATORS IOP_ShortDownArrow); (TK_LongName_RightUpVector, IP_InfixOperator PREC_CLASS_VERTICALVECTOROPERATORS IOP_RightUpVector);
  (TK_LongName_LeftUpVector, IP_InfixOperator PREC_CLASS_VERTICALVECTOROPERATORS IOP_LeftUpVector); (TK_LongName_RightDownVector, IP_InfixOperator PREC_CLASS_VERTICALVECTOROPERATORS IOP_RightDownVector);
  (TK_LongName_LeftDownVector, IP_InfixOperator PREC_CLASS_VERTICALVECTOROPERATORS IOP_LeftDownVector); (TK_LongName_RightUpDownVector, IP_InfixOperator PREC_CLASS_VERTICALVECTOROPERATORS IOP_RightUpDownVector);
  (TK_LongName_LeftUpDownVector, IP_InfixOperator PREC_CLASS_VERTICALVECTOROPERATORS IOP_LeftUpDownVector); (TK_LongName_RightUpVectorBar, IP_InfixOperator PREC_CLASS_VERTICALVECTOROPERATORS IOP_RightUpVectorBar);
  (TK_LongName_RightDownVectorBar, IP_InfixOperator PREC_CLASS_VERTICALVECTOROPERATORS IOP_RightDownVectorBar); (TK_LongName_LeftUpVectorBar, IP_InfixOperator PREC_CLASS_VERTICALVECTOROPERATORS IOP_LeftUpVectorBar);
  (TK_LongName_LeftDownVectorBar, IP_InfixOperator PREC_CLASS_VERTICALVECTOROPERATORS IOP_LeftDownVectorBar); (TK_LongName_RightUpTeeVector, IP_InfixOperator PREC_CLASS_VERTICALVECTOROPERATORS IOP_RightUpTeeVector);
  (TK_LongName_RightDownTeeVector, IP_InfixOperator PREC_CLASS_VERTICALVECTOROPERATORS IOP_RightDownTeeVector); (TK_LongName_LeftUpTeeVector, IP_InfixOperator PREC_CLASS_VERTICALVECTOROPERATORS IOP_LeftUpTeeVector);
  (TK_LongName_LeftDownTeeVector, IP_InfixOperator PREC_CLASS_VERTICALVECTOROPERATORS IOP_LeftDownTeeVector); (TK_LongName_UpEquilibrium, IP_InfixOperator PREC_CLASS_VERTICALVECTOROPERATORS IOP_UpEquilibrium);
  (TK_LongName_ReverseUpEquilibrium, IP_InfixOperator PREC_CLASS_VERTICALVECTOROPERATORS IOP_ReverseUpEquilibrium); (TK_LongName_CenterDot, IP_InfixOperator PREC_LONGNAME_CENTERDOT IOP_CenterDot);
  (TK_LongName_Equivalent, IP_InfixOperator PREC_LONGNAME_EQUIVALENT IOP_Equivalent); (TK_LongName_CircleDot, IP_InfixOperator PREC_LONGNAME_CIRCLEDOT IOP_CircleDot);
  (TK_LongName_Conditioned, IP_InfixOperator PREC_LONGNAME_CONDITIONED IOP_Conditioned); (TK_LongName_Union, IP_InfixOperator PREC_CLASS_UNIONOPERATORS IOP_Union);
  (TK_LongName_SquareUnion, IP_InfixOperator PREC_CLASS_UNIONOPERATORS IOP_SquareUnion); (TK_LongName_UnionPlus, IP_InfixOperator PREC_CLASS_UNIONOPERATORS IOP_UnionPlus);
  (TK_LongName_Intersection, IP_InfixOperator PREC_CLASS_INTERSECTIONOPERATORS IOP_Intersection); (TK_LongName_SquareIntersection, IP_InfixOperator PREC_CLASS_INTERSECTIONOPERATORS IOP_SquareIntersection);
  (TK_LongName_TensorWedge, IP_InfixOperator PREC_LONGNAME_TENSORWEDGE IOP_TensorWedge); (TK_LongName_TensorProduct, IP_InfixOperator PREC_LONGNAME_TENSORPRODUCT IOP_TensorProduct);
  (TK_LongName_Cross, IP_InfixOperator PREC_LONGNAME_CROSS IOP_Cross); (TK_LongName_SmallCircle, IP_InfixOperator PREC_LONGNAME_SMALLCIRCLE IOP_SmallCircle);
  (TK_LongName_Divides, IP_InfixOperator PREC_LONGNAME_DIVIDES IOP_Divisible); (TK_LongName_VerticalSeparator, IP_InfixOperator PREC_LONGNAME_VERTICALSEPARATOR IOP_VerticalSeparator);
  (TK_LongName_Backslash, IP_InfixOperator PREC_LONGNAME_BACKSLASH IOP_Backslash); (TK_LongName_Diamond, IP_InfixOperator PREC_LONGNAME_DIAMOND IOP_Diamond);
  (TK_LongName_Wedge, IP_InfixOperator PREC_LONGNAME_WEDGE IOP_Wedge); (TK_LongName_Vee, IP_InfixOperator PREC_LONGNAME_VEE IOP_Vee);
  (TK_LongName_CircleTimes, IP_InfixOperator PREC_INFIX_LONGNAME_CIRCLETIMES IOP_CircleTimes); (TK_LongName_Star, IP_InfixOperator PREC_LONGNAME_STAR IOP_Star);
  (TK_LongName_VerticalTilde, IP_InfixOperator PREC_LONGNAME_VERTICALTILDE IOP_VerticalTilde); (TK_LongName_Coproduct, IP_InfixOperator PREC_INFIX_LONGNAME_COPRODUCT IOP_Coproduct);
  (TK_LongName_Cap, IP_InfixOperator PREC_LONGNAME_CAP IOP_Cap); (TK_LongName_Cup, IP_InfixOperator PREC_LONGNAME_CUP IOP_Cup);
  (TK_LongName_CirclePlus, IP_InfixOperator PREC_LONGNAME_CIRCLEPLUS IOP_CirclePlus); (TK_LongName_VerticalBar, IP_InfixOperator PREC_LONGNAME_VERTICALBAR IOP_VerticalBar);
  (TK_LongName_DoubleVerticalBar, IP_InfixOperator PREC_LONGNAME_DOUBLEVERTICALBAR IOP_DoubleVerticalBar); (TK_LongName_NotVerticalBar, IP_InfixOperator PREC_LONGNAME_NOTVERTICALBAR IOP_NotVerticalBar);
  (TK_LongName_NotDoubleVerticalBar, IP_InfixOperator PREC_LONGNAME_NOTDOUBLEVERTICALBAR IOP_NotDoubleVerticalBar); (TK_LongName_LeftTriangle, IP_InfixOperator PREC_CLASS_ORDERINGOPERATORS IOP_LeftTriangle);
  (TK_LongName_RightTriangle, IP_InfixOperator PREC_CLASS_ORDERINGOPERATORS IOP_RightTriangle); (TK_LongName_NotLeftTriangle, IP_InfixOperator PREC_CLASS_ORDERINGOPERATORS IOP_NotLeftTriangle);
  (TK_LongName_NotRightTriangle, IP_InfixOperator PREC_CLASS_ORDERINGOPERATORS IOP_NotRightTriangle); (TK_LongName_LeftTriangleEqual, IP_InfixOperator PREC_CLASS_ORDERINGOPERATORS IOP_LeftTriangleEqual);
  (TK_LongName_RightTriangleEqual, IP_InfixOperator PREC_CLASS_ORDERINGOPERATORS IOP_RightTriangleEqual); (TK_LongName_NotLeftTriangleEqual, IP_InfixOperator PREC_CLASS_ORDERINGOPERATORS IOP_NotLeftTriangleEqual);
  (TK_LongName_NotRightTriangleEqual, IP_InfixOperator PREC_CLASS_ORDERINGOPERATORS IOP_NotRightTriangleEqual); (TK_LongName_LeftTriangleBar, IP_InfixOperator PREC_CLASS_ORDERINGOPERATORS IOP_LeftTriangleBar);
  (TK_LongName_RightTriangleBar, IP_InfixOperator PREC_CLASS_ORDERINGOPERATORS IOP_RightTriangleBar); (TK_LongName_NotLeftTriangleBar, IP_InfixOperator PREC_CLASS_ORDERINGOPERATORS IOP_NotLeftTriangleBar);
  (TK_LongName_NotRightTriangleBar, IP_InfixOperator PREC_CLASS_ORDERINGOPERATORS IOP_NotRightTriangleBar); (TK_LongName_TildeEqual, IP_InfixOperator PREC_CLASS_ORDERINGOPERATORS IOP_TildeEqual);
  (TK_LongName_NotTildeEqual, IP_InfixOperator PREC_CLASS_ORDERINGOPERATORS IOP_NotTildeEqual); (TK_LongName_TildeFullEqual, IP_InfixOperator PREC_CLASS_ORDERINGOPERATORS IOP_TildeFullEqual);
  (TK_LongName_NotTildeFullEqual, IP_InfixOperator PREC_CLASS_ORDERINGOPERATORS IOP_NotTildeFullEqual); (TK_LongName_Tilde, IP_InfixOperator PREC_CLASS_ORDERINGOPERATORS IOP_Tilde);
  (TK_LongName_NotTilde, IP_InfixOperator PREC_CLASS_ORDERINGOPERATORS IOP_NotTilde); (TK_LongName_EqualTilde, IP_InfixOperator PREC_CLASS_ORDERINGOPERATORS IOP_EqualTilde);
  (TK_LongName_NotEqualTilde, IP_InfixOperator PREC_CLASS_ORDERINGOPERATORS IOP_NotEqualTilde); (TK_LongName_TildeTilde, IP_InfixOperator PREC_CLASS_ORDERINGOPERATORS IOP_TildeTilde);
  (TK_LongName_NotTildeTilde, IP_InfixOperator PREC_CLASS_ORDERINGOPERATORS IOP_NotTildeTilde); (TK_LongName_Proportional, IP_InfixOperator PREC_CLASS_ORDERINGOPERATORS IOP_Proportional);
  (TK_LongName_Proportion, IP_InfixOperator PREC_CLASS_ORDERINGOPERATORS IOP_Proportion); (TK_LongName_Congruent, IP_InfixOperator PREC_CLASS_ORDERINGOPERATORS IOP_Congruent);
  (TK_LongName_NotCongruent, IP_InfixOperator PREC_CLASS_ORDERINGOPERATORS IOP_NotCongruent); (TK_LongName_Equilibrium, IP_InfixOperator PREC_CLASS_ORDERINGOPERATORS IOP_Equilibrium);
  (TK_LongName_ReverseEquilibrium, IP_InfixOperator PREC_CLASS_ORDERINGOPERATORS IOP_ReverseEquilibrium); (TK_LongName_DotEqual, IP_InfixOperator PREC_CLASS_ORDERINGOPERATORS IOP_DotEqual);
  (TK_LongName_Precedes, IP_InfixOperator PREC_CLASS_ORDERINGOPERATORS IOP_Precedes); (TK_LongName_Succeeds, IP_InfixOperator PREC_CLASS_ORDERINGOPERATORS IOP_Succeeds);
  (TK_LongName_PrecedesEqual, IP_InfixOperator PREC_CLASS_ORDERINGOPERATORS IOP_PrecedesEqual); (TK_LongName_SucceedsEqual, IP_InfixOperator PREC_CLASS_ORDERINGOPERATORS IOP_SucceedsEqual);
  (TK_LongName_PrecedesTilde, IP_InfixOperator PREC_CLASS_ORDERINGOPERATORS IOP_PrecedesTilde); (TK_LongName_SucceedsTilde, IP_InfixOperator PREC_CLASS_ORDERINGOPERATORS IOP_SucceedsTilde);
  (TK_LongName_PrecedesSlantEqual, IP_InfixOperator PREC_CLASS_ORDERINGOPERATORS IOP_PrecedesSlantEqual); (TK_LongName_SucceedsSlantEqual, IP_InfixOperator PREC_CLASS_ORDERINGOPERATORS IOP_SucceedsSlantEqual);
  (TK_LongName_NotPrecedes, IP_InfixOperator PREC_CLASS_ORDERINGOPERATORS IOP_NotPrecedes); (TK_LongName_NotSucceeds, IP_InfixOperator PREC_CLASS_ORDERINGOPERATORS IOP_NotSucceeds);
  (TK_LongName_NotPrecedesEqual, IP_InfixOperator PREC_CLASS_ORDERINGOPERATORS IOP_NotPrecedesEqual); (TK_LongName_NotSucceedsEqual, IP_InfixOperator PREC_CLASS_ORDERINGOPERATORS IOP_NotSucceedsEqual);
  (TK_LongName_NotPrecedesTilde, IP_InfixOperator PREC_CLASS_ORDERINGOPERATORS IOP_NotPrecedesTilde); (TK_LongName_NotSucceedsTilde, IP_InfixOperator PREC_CLASS_ORDERINGOPERATORS IOP_NotSucceedsTilde);
  (TK_LongName_NotPrecedesSlantEqual, IP_InfixOperator PREC_CLASS_ORDERINGOPERATORS IOP_NotPrecedesSlantEqual); (TK_LongName_NotSucceedsSlantEqual, IP_InfixOperator PREC_CLASS_ORDERINGOPERATORS IOP_NotSucceedsSlantEqual);
  (TK_LongName_CupCap, IP_InfixOperator PREC_CLASS_ORDERINGOPERATORS IOP_CupCap); (TK_LongName_NotCupCap, IP_InfixOperator PREC_CLASS_ORDERINGOPERATORS IOP_NotCupCap);
  (TK_LongName_HumpEqual, IP_InfixOperator PREC_CLASS_ORDERINGOPERATORS IOP_HumpEqual); (TK_LongName_HumpDownHump, IP_InfixOperator PREC_CLASS_ORDERINGOPERATORS IOP_HumpDownHump);
  (TK_LongName_NotHumpEqual, IP_InfixOperator PREC_CLASS_ORDERINGOPERATORS IOP_NotHumpEqual); (TK_LongName_NotHumpDownHump, IP_InfixOperator PREC_CLASS_ORDERINGOPERATORS IOP_NotHumpDownHump);
  (TK_BangEqual, IP_InfixOperator PREC_CLASS_INEQUALITY IOP_CodeParser_InfixInequality); (TK_EqualEqual, IP_InfixOperator PREC_CLASS_INEQUALITY IOP_CodeParser_InfixInequality);
  (TK_Greater, IP_InfixOperator PREC_CLASS_INEQUALITY IOP_CodeParser_InfixInequality); (TK_GreaterEqual, IP_InfixOperator PREC_CLASS_INEQUALITY IOP_CodeParser_InfixInequality);
  (TK_LessEqual, IP_InfixOperator PREC_CLASS_INEQUALITY IOP_CodeParser_InfixInequality); (TK_Less, IP_InfixOperator PREC_CLASS_INEQUALITY IOP_CodeParser_InfixInequality);
  (TK_LongName_Equal, IP_InfixOperator PREC_CLASS_INEQUALITY IOP_CodeParser_InfixInequality); (TK_LongName_GreaterEqual, IP_InfixOperator PREC_CLASS_INEQUALITY IOP_CodeParser_InfixInequality);
  (TK_LongName_GreaterEqualLess, IP_InfixOperator PREC_CLASS_INEQUALITY IOP_CodeParser_InfixInequality); (TK_LongName_GreaterFullEqual, IP_InfixOperator PREC_CLASS_INEQUALITY IOP_CodeParser_InfixInequality);
  (TK_LongName_GreaterGreater, IP_InfixOperator PREC_CLASS_INEQUALITY IOP_CodeParser_InfixInequality); (TK_LongName_GreaterLess, IP_InfixOperator PREC_CLASS_INEQUALITY IOP_CodeParser_InfixInequality);
  (TK_LongName_GreaterSlantEqual, IP_InfixOperator PREC_CLASS_INEQUALITY IOP_CodeParser_InfixInequality); (TK_LongName_GreaterTilde, IP_InfixOperator PREC_CLASS_INEQUALITY IOP_CodeParser_InfixInequality);
  (TK_LongName_LessEqual, IP_InfixOperator PREC_CLASS_INEQUALITY IOP_CodeParser_InfixInequality); (TK_LongName_LessEqualGreater, IP_InfixOperator PREC_CLASS_INEQUALITY IOP_CodeParser_InfixInequality);
  (TK_LongName_LessFullEqual, IP_InfixOperator PREC_CLASS_INEQUALITY IOP_CodeParser_InfixInequality); (TK_LongName_LessGreater, IP_InfixOperator PREC_CLASS_INEQUALITY IOP_CodeParser_InfixInequality);
  (TK_LongName_LessLess, IP_InfixOperator PREC_CLASS_INEQUALITY IOP_CodeParser_InfixInequality); (TK_LongName_LessSlantEqual, IP_InfixOperator PREC_CLASS_INEQUALITY IOP_CodeParser_InfixInequality);
  (TK_LongName_LessTilde, IP_InfixOperator PREC_CLASS_INEQUALITY IOP_CodeParser_InfixInequality); (TK_LongName_LongEqual, IP_InfixOperator PREC_CLASS_INEQUALITY IOP_CodeParser_InfixInequality);
  (TK_LongName_NestedGreaterGreater, IP_InfixOperator PREC_CLASS_INEQUALITY IOP_CodeParser_InfixInequality); (TK_LongName_NestedLessLess, IP_InfixOperator PREC_CLASS_INEQUALITY IOP_CodeParser_InfixInequality);
  (TK_LongName_NotEqual, IP_InfixOperator PREC_CLASS_INEQUALITY IOP_CodeParser_InfixInequality); (TK_LongName_NotGreater, IP_InfixOperator PREC_CLASS_INEQUALITY IOP_CodeParser_InfixInequality);
  (TK_LongName_NotGreaterEqual, IP_InfixOperator PREC_CLASS_INEQUALITY IOP_CodeParser_InfixInequality); (TK_LongName_NotGreaterFullEqual, IP_InfixOperator PREC_CLASS_INEQUALITY IOP_CodeParser_InfixInequality);
  (TK_LongName_NotGreaterGreater, IP_InfixOperator PREC_CLASS_INEQUALITY IOP_CodeParser_InfixInequality); (TK_LongName_NotGreaterLess, IP_InfixOperator PREC_CLASS_INEQUALITY IOP_CodeParser_InfixInequality);
  (TK_LongName_NotGreaterSlantEqual, IP_InfixOperator PREC_CLASS_INEQUALITY IOP_CodeParser_InfixInequality); (TK_LongName_NotGreaterTilde, IP_InfixOperator PREC_CLASS_INEQUALITY IOP_CodeParser_InfixInequality);
  (TK_LongName_NotLess, IP_InfixOperator PREC_CLASS_INEQUALITY IOP_CodeParser_InfixInequality); (TK_LongName_NotLessEqual, IP_InfixOperator PREC_CLASS_INEQUALITY IOP_CodeParser_InfixInequality);
  (TK_LongName_NotLessFullEqual, IP_InfixOperator PREC_CLASS_INEQUALITY IOP_CodeParser_InfixInequality); (TK_LongName_NotLessGreater, IP_InfixOperator PREC_CLASS_INEQUALITY IOP_CodeParser_InfixInequality);
  (TK_LongName_NotLessLess, IP_InfixOperator PREC_CLASS_INEQUALITY IOP_CodeParser_InfixInequality); (TK_LongName_NotLessSlantEqual, IP_InfixOperator PREC_CLASS_INEQUALITY IOP_CodeParser_InfixInequality);
  (TK_LongName_NotLessTilde, IP_InfixOperator PREC_CLASS_INEQUALITY IOP_CodeParser_InfixInequality); (TK_LongName_NotNestedGreaterGreater, IP_InfixOperator PREC_CLASS_INEQUALITY IOP_CodeParser_InfixInequality);
  (TK_LongName_NotNestedLessLess, IP_InfixOperator PREC_CLASS_INEQUALITY IOP_CodeParser_InfixInequality); (TK_LongName_VectorGreater, IP_InfixOperator PREC_CLASS_INEQUALITY IOP_CodeParser_InfixInequality);
  (TK_LongName_VectorGreaterEqual, IP_InfixOperator PREC_CLASS_INEQUALITY IOP_CodeParser_InfixInequality); (TK_LongName_VectorLess, IP_InfixOperator PREC_CLASS_INEQUALITY IOP_CodeParser_InfixInequality);
  (TK_LongName_VectorLessEqual, IP_InfixOperator PREC_CLASS_INEQUALITY IOP_CodeParser_InfixInequality); (TK_LongName_PermutationProduct, IP_InfixOperator PREC_LONGNAME_PERMUTATIONPRODUCT IOP_PermutationProduct);
  (TK_LongName_Colon, IP_InfixOperator PREC_LONGNAME_COLON IOP_Colon); (TK_LongName_Xnor, IP_InfixOperator PREC_LONGNAME_XNOR IOP_Xnor);
  (TK_LongName_Minus, IP_InfixOperator PREC_INFIX_LONGNAME_MINUS IOP_Plus); (TK_Amp, IP_PostfixOperator PREC_AMP POSTOP_Function);
  (TK_DotDot, IP_PostfixOperator PREC_DOTDOT POSTOP_Repeated); (TK_Bang, IP_PostfixOperator PREC_POSTFIX_BANG POSTOP_Factorial);
  (TK_MinusMinus, IP_PostfixOperator PREC_POSTFIX_MINUSMINUS POSTOP_Decrement); (TK_PlusPlus, IP_PostfixOperator PREC_POSTFIX_PLUSPLUS POSTOP_Increment);
  (TK_DotDotDot, IP_PostfixOperator PREC_DOTDOTDOT POSTOP_RepeatedNull); (TK_BangBang, IP_PostfixOperator PREC_POSTFIX_BANGBANG POSTOP_Factorial2);
  (TK_SingleQuote, IP_PostfixOperator PREC_SINGLEQUOTE POSTOP_Derivative); (TK_LongName_Transpose, IP_PostfixOperator PREC_LONGNAME_TRANSPOSE POSTOP_Transpose);
  (TK_LongName_Conjugate, IP_PostfixOperator PREC_LONGNAME_CONJUGATE POSTOP_Conjugate); (TK_LongName_ConjugateTranspose, IP_PostfixOperator PREC_LONGNAME_CONJUGATETRANSPOSE POSTOP_ConjugateTranspose);
  (TK_LongName_HermitianConjugate, IP_PostfixOperator PREC_LONGNAME_HERMITIANCONJUGATE POSTOP_HermitianConjugate); (TK_LongName_InvisiblePostfixScriptBase, IP_PostfixOperator PREC_LONGNAME_INVISIBLEPOSTFIXSCRIPTBASE POSTOP_InvisiblePostfixScriptBase);
  (TK_OpenSquare, IP_Call TK_OpenSquare GOP_CodeParser_GroupSquare); (TK_LongName_LeftDoubleBracket, IP_Call TK_LongName_LeftDoubleBracket GOP_CodeParser_GroupDoubleBracket);
  (TK_ColonColonOpenSquare, IP_Call TK_ColonColonOpenSquare GOP_CodeParser_GroupTypeSpecifier); (TK_Semi, IP_Semi);
  (TK_Comma, IP_Comma); (TK_LongName_InvisibleComma, IP_Comma);
  (TK_SemiSemi, IP_SemiSemi); (TK_Tilde, IP_Tilde);
  (TK_Colon, IP_Colon); (TK_SlashColon, IP_SlashColon);
  (TK_Equal, IP_Equal); (TK_ColonEqual, IP_ColonEqual);
  (TK_ColonColon, IP_ColonColon); (TK_GreaterGreater, IP_GreaterGreater);
  (TK_GreaterGreaterGreater, IP_GreaterGreaterGreater); (TK_QuestionQuestion, IP_InfixAssertFalse);
  (TK_LongName_Limit, IP_InfixAssertFalse); (TK_LongName_MaxLimit, IP_InfixAssertFalse);
  (TK_LongName_MinLimit, IP_InfixAssertFalse); (TK_LongName_AutoLeftMatch, IP_InfixAssertFalse);
  (TK_LongName_AutoRightMatch, IP_InfixAssertFalse); (TK_LongName_DiscreteShift, IP_InfixAssertFalse);
  (TK_LongName_DifferenceDelta, IP_InfixAssertFalse); (TK_LongName_DiscreteRatio, IP_InfixAssertFalse);
  (TK_LongName_PartialD, IP_InfixAssertFalse)
].
