(** GENERATED by tools/gen_tables.py from /repo/crates/wolfram-parser/src/generated/precedence_values.rs.  Do not edit. *)
From Coq Require Import ZArith List String.
Import ListNotations.
Local Open Scope Z_scope.

Definition PREC_COMMA : Z := 2.
Definition PREC_LONGNAME_INVISIBLECOMMA : Z := 2.
Definition PREC_SEMI : Z := 4.
Definition PREC_GREATERGREATER : Z := 6.
Definition PREC_GREATERGREATERGREATER : Z := 6.
Definition PREC_EQUAL : Z := 9.
Definition PREC_COLONEQUAL : Z := 9.
Definition PREC_CARETEQUAL : Z := 9.
Definition PREC_CARETCOLONEQUAL : Z := 9.
Definition PREC_LONGNAME_FUNCTION : Z := 9.
Definition PREC_FAKE_EQUALDOT : Z := 9.
Definition PREC_BARMINUSGREATER : Z := 9.
Definition PREC_SLASHCOLON : Z := 11.
Definition PREC_LONGNAME_BECAUSE : Z := 12.
Definition PREC_LONGNAME_THEREFORE : Z := 15.
Definition PREC_LONGNAME_VERTICALSEPARATOR : Z := 16.
Definition PREC_SLASHSLASH : Z := 18.
Definition PREC_SLASHSLASHEQUAL : Z := 21.
Definition PREC_LONGNAME_COLON : Z := 22.
Definition PREC_AMP : Z := 24.
Definition PREC_PLUSEQUAL : Z := 27.
Definition PREC_STAREQUAL : Z := 27.
Definition PREC_MINUSEQUAL : Z := 27.
Definition PREC_SLASHEQUAL : Z := 27.
Definition PREC_SLASHDOT : Z := 28.
Definition PREC_SLASHSLASHDOT : Z := 28.
Definition PREC_MINUSGREATER : Z := 31.
Definition PREC_COLONGREATER : Z := 31.
Definition PREC_LONGNAME_RULE : Z := 31.
Definition PREC_LONGNAME_RULEDELAYED : Z := 31.
Definition PREC_LESSMINUSGREATER : Z := 33.
Definition PREC_LONGNAME_TWOWAYRULE : Z := 33.
Definition PREC_SLASHSEMI : Z := 34.
Definition PREC_TILDETILDE : Z := 36.
Definition PREC_FAKE_OPTIONALCOLON : Z := 38.
Definition PREC_FAKE_PATTERNCOLON : Z := 40.
Definition PREC_BAR : Z := 42.
Definition PREC_DOTDOT : Z := 44.
Definition PREC_DOTDOTDOT : Z := 44.
Definition PREC_LONGNAME_SUCHTHAT : Z := 47.
Definition PREC_LONGNAME_UPTEE : Z := 48.
Definition PREC_LONGNAME_DOWNTEE : Z := 48.
Definition PREC_LONGNAME_LEFTTEE : Z := 48.
Definition PREC_LONGNAME_DOUBLELEFTTEE : Z := 48.
Definition PREC_LONGNAME_PERPENDICULAR : Z := 48.
Definition PREC_LONGNAME_RIGHTTEE : Z := 51.
Definition PREC_LONGNAME_DOUBLERIGHTTEE : Z := 51.
Definition PREC_LONGNAME_CONDITIONED : Z := 52.
Definition PREC_LONGNAME_IMPLIES : Z := 55.
Definition PREC_LONGNAME_ROUNDIMPLIES : Z := 55.
Definition PREC_LONGNAME_EQUIVALENT : Z := 56.
Definition PREC_BARBAR : Z := 58.
Definition PREC_LONGNAME_OR : Z := 58.
Definition PREC_LONGNAME_NOR : Z := 58.
Definition PREC_LONGNAME_XOR : Z := 60.
Definition PREC_LONGNAME_XNOR : Z := 60.
Definition PREC_AMPAMP : Z := 62.
Definition PREC_LONGNAME_AND : Z := 62.
Definition PREC_LONGNAME_NAND : Z := 62.
Definition PREC_PREFIX_BANG : Z := 64.
Definition PREC_LONGNAME_NOT : Z := 64.
Definition PREC_FAKE_PREFIX_BANGBANG : Z := 64.
Definition PREC_LONGNAME_FORALL : Z := 66.
Definition PREC_LONGNAME_EXISTS : Z := 66.
Definition PREC_LONGNAME_NOTEXISTS : Z := 66.
Definition PREC_CLASS_SETRELATIONS : Z := 68.
Definition PREC_EQUALEQUALEQUAL : Z := 70.
Definition PREC_EQUALBANGEQUAL : Z := 70.
Definition PREC_CLASS_HORIZONTALARROWS : Z := 72.
Definition PREC_CLASS_VECTOROPERATORS : Z := 72.
Definition PREC_CLASS_DIAGONALARROWOPERATORS : Z := 72.
Definition PREC_LONGNAME_VERTICALBAR : Z := 74.
Definition PREC_LONGNAME_NOTVERTICALBAR : Z := 74.
Definition PREC_LONGNAME_DOUBLEVERTICALBAR : Z := 74.
Definition PREC_LONGNAME_NOTDOUBLEVERTICALBAR : Z := 74.
Definition PREC_CLASS_ORDERINGOPERATORS : Z := 76.
Definition PREC_CLASS_INEQUALITY : Z := 76.
Definition PREC_LONGNAME_DIRECTEDEDGE : Z := 79.
Definition PREC_LONGNAME_UNDIRECTEDEDGE : Z := 79.
Definition PREC_SEMISEMI : Z := 80.
Definition PREC_CLASS_UNIONOPERATORS : Z := 82.
Definition PREC_CLASS_INTERSECTIONOPERATORS : Z := 84.
Definition PREC_INFIX_PLUS : Z := 86.
Definition PREC_INFIX_MINUS : Z := 86.
Definition PREC_INFIX_LONGNAME_PLUSMINUS : Z := 86.
Definition PREC_INFIX_LONGNAME_MINUSPLUS : Z := 86.
Definition PREC_INFIX_LONGNAME_MINUS : Z := 86.
Definition PREC_LONGNAME_IMPLICITPLUS : Z := 88.
Definition PREC_LONGNAME_SUM : Z := 90.
Definition PREC_CLASS_INTEGRATIONOPERATORS : Z := 92.
Definition PREC_LONGNAME_EXPECTATIONE : Z := 92.
Definition PREC_LONGNAME_PROBABILITYPR : Z := 92.
Definition PREC_LONGNAME_CIRCLEPLUS : Z := 94.
Definition PREC_LONGNAME_CIRCLEMINUS : Z := 94.
Definition PREC_LONGNAME_CUP : Z := 96.
Definition PREC_LONGNAME_CAP : Z := 98.
Definition PREC_INFIX_LONGNAME_COPRODUCT : Z := 100.
Definition PREC_LONGNAME_VERTICALTILDE : Z := 102.
Definition PREC_LONGNAME_PRODUCT : Z := 104.
Definition PREC_LONGNAME_CONTINUEDFRACTIONK : Z := 104.
Definition PREC_LONGNAME_STAR : Z := 106.
Definition PREC_STAR : Z := 108.
Definition PREC_LONGNAME_TIMES : Z := 108.
Definition PREC_LONGNAME_INVISIBLETIMES : Z := 108.
Definition PREC_FAKE_IMPLICITTIMES : Z := 108.
Definition PREC_LONGNAME_CENTERDOT : Z := 110.
Definition PREC_INFIX_LONGNAME_CIRCLETIMES : Z := 112.
Definition PREC_LONGNAME_VEE : Z := 114.
Definition PREC_LONGNAME_WEDGE : Z := 116.
Definition PREC_LONGNAME_DIAMOND : Z := 118.
Definition PREC_LONGNAME_BACKSLASH : Z := 120.
Definition PREC_SLASH : Z := 122.
Definition PREC_LONGNAME_DIVIDE : Z := 122.
Definition PREC_LONGNAME_DIVIDES : Z := 122.
Definition PREC_LONGNAME_DIVISIONSLASH : Z := 122.
Definition PREC_PREFIX_MINUS : Z := 124.
Definition PREC_PREFIX_PLUS : Z := 124.
Definition PREC_PREFIX_LONGNAME_PLUSMINUS : Z := 124.
Definition PREC_PREFIX_LONGNAME_MINUSPLUS : Z := 124.
Definition PREC_PREFIX_LONGNAME_MINUS : Z := 124.
Definition PREC_PREFIX_LONGNAME_CIRCLETIMES : Z := 124.
Definition PREC_PREFIX_LONGNAME_COPRODUCT : Z := 124.
Definition PREC_DOT : Z := 126.
Definition PREC_LONGNAME_TENSORPRODUCT : Z := 128.
Definition PREC_LONGNAME_CROSS : Z := 130.
Definition PREC_LONGNAME_TENSORWEDGE : Z := 130.
Definition PREC_STARSTAR : Z := 132.
Definition PREC_LONGNAME_CIRCLEDOT : Z := 134.
Definition PREC_LONGNAME_PERMUTATIONPRODUCT : Z := 134.
Definition PREC_LONGNAME_SMALLCIRCLE : Z := 136.
Definition PREC_LONGNAME_SQUARE : Z := 138.
Definition PREC_LONGNAME_DEL : Z := 140.
Definition PREC_LONGNAME_PIECEWISE : Z := 142.
Definition PREC_LONGNAME_DIFFERENTIALD : Z := 144.
Definition PREC_LONGNAME_CAPITALDIFFERENTIALD : Z := 144.
Definition PREC_LONGNAME_SQRT : Z := 146.
Definition PREC_LONGNAME_CUBEROOT : Z := 146.
Definition PREC_CLASS_VERTICALARROWOPERATORS : Z := 148.
Definition PREC_CLASS_VERTICALVECTOROPERATORS : Z := 148.
Definition PREC_CARET : Z := 151.
Definition PREC_LESSGREATER : Z := 152.
Definition PREC_SINGLEQUOTE : Z := 154.
Definition PREC_LONGNAME_TRANSPOSE : Z := 156.
Definition PREC_LONGNAME_CONJUGATE : Z := 156.
Definition PREC_LONGNAME_CONJUGATETRANSPOSE : Z := 156.
Definition PREC_LONGNAME_HERMITIANCONJUGATE : Z := 156.
Definition PREC_POSTFIX_BANG : Z := 158.
Definition PREC_POSTFIX_BANGBANG : Z := 158.
Definition PREC_ATAT : Z := 161.
Definition PREC_SLASHAT : Z := 161.
Definition PREC_ATATAT : Z := 161.
Definition PREC_SLASHSLASHAT : Z := 161.
Definition PREC_TILDE : Z := 162.
Definition PREC_AT : Z := 165.
Definition PREC_LONGNAME_INVISIBLEAPPLICATION : Z := 165.
Definition PREC_LONGNAME_APPLICATION : Z := 166.
Definition PREC_SLASHSTAR : Z := 168.
Definition PREC_ATSTAR : Z := 170.
Definition PREC_PREFIX_PLUSPLUS : Z := 172.
Definition PREC_PREFIX_MINUSMINUS : Z := 172.
Definition PREC_POSTFIX_PLUSPLUS : Z := 174.
Definition PREC_POSTFIX_MINUSMINUS : Z := 174.
Definition PREC_CALL : Z := 176.
Definition PREC_INFIX_QUESTION : Z := 178.
Definition PREC_LINEARSYNTAX_BANG : Z := 180.
Definition PREC_LESSLESS : Z := 182.
Definition PREC_COLONCOLON : Z := 184.
Definition PREC_LONGNAME_INVISIBLEPREFIXSCRIPTBASE : Z := 186.
Definition PREC_LONGNAME_INVISIBLEPOSTFIXSCRIPTBASE : Z := 186.
Definition PREC_HIGHEST : Z := 188.
Definition PREC_SYMBOL : Z := 188.
Definition PREC_UNDER : Z := 188.

Definition PRECEDENCES : list (string * Z) := [
  ("COMMA"%string, 2); ("LONGNAME_INVISIBLECOMMA"%string, 2);
  ("SEMI"%string, 4); ("GREATERGREATER"%string, 6);
  ("GREATERGREATERGREATER"%string, 6); ("EQUAL"%string, 9);
  ("COLONEQUAL"%string, 9); ("CARETEQUAL"%string, 9);
  ("CARETCOLONEQUAL"%string, 9); ("LONGNAME_FUNCTION"%string, 9);
  ("FAKE_EQUALDOT"%string, 9); ("BARMINUSGREATER"%string, 9);
  ("SLASHCOLON"%string, 11); ("LONGNAME_BECAUSE"%string, 12);
  ("LONGNAME_THEREFORE"%string, 15); ("LONGNAME_VERTICALSEPARATOR"%string, 16);
  ("SLASHSLASH"%string, 18); ("SLASHSLASHEQUAL"%string, 21);
  ("LONGNAME_COLON"%string, 22); ("AMP"%string, 24);
  ("PLUSEQUAL"%string, 27); ("STAREQUAL"%string, 27);
  ("MINUSEQUAL"%string, 27); ("SLASHEQUAL"%string, 27);
  ("SLASHDOT"%string, 28); ("SLASHSLASHDOT"%string, 28);
  ("MINUSGREATER"%string, 31); ("COLONGREATER"%string, 31);
  ("LONGNAME_RULE"%string, 31); ("LONGNAME_RULEDELAYED"%string, 31);
  ("LESSMINUSGREATER"%string, 33); ("LONGNAME_TWOWAYRULE"%string, 33);
  ("SLASHSEMI"%string, 34); ("TILDETILDE"%string, 36);
  ("FAKE_OPTIONALCOLON"%string, 38); ("FAKE_PATTERNCOLON"%string, 40);
  ("BAR"%string, 42); ("DOTDOT"%string, 44);
  ("DOTDOTDOT"%string, 44); ("LONGNAME_SUCHTHAT"%string, 47);
  ("LONGNAME_UPTEE"%string, 48); ("LONGNAME_DOWNTEE"%string, 48);
  ("LONGNAME_LEFTTEE"%string, 48); ("LONGNAME_DOUBLELEFTTEE"%string, 48);
  ("LONGNAME_PERPENDICULAR"%string, 48); ("LONGNAME_RIGHTTEE"%string, 51);
  ("LONGNAME_DOUBLERIGHTTEE"%string, 51); ("LONGNAME_CONDITIONED"%string, 52);
  ("LONGNAME_IMPLIES"%string, 55); ("LONGNAME_ROUNDIMPLIES"%string, 55);
  ("LONGNAME_EQUIVALENT"%string, 56); ("BARBAR"%string, 58);
  ("LONGNAME_OR"%string, 58); ("LONGNAME_NOR"%string, 58);
  ("LONGNAME_XOR"%string, 60); ("LONGNAME_XNOR"%string, 60);
  ("AMPAMP"%string, 62); ("LONGNAME_AND"%string, 62);
  ("LONGNAME_NAND"%string, 62); ("PREFIX_BANG"%string, 64);
  ("LONGNAME_NOT"%string, 64); ("FAKE_PREFIX_BANGBANG"%string, 64);
  ("LONGNAME_FORALL"%string, 66); ("LONGNAME_EXISTS"%string, 66);
  ("LONGNAME_NOTEXISTS"%string, 66); ("CLASS_SETRELATIONS"%string, 68);
  ("EQUALEQUALEQUAL"%string, 70); ("EQUALBANGEQUAL"%string, 70);
  ("CLASS_HORIZONTALARROWS"%string, 72); ("CLASS_VECTOROPERATORS"%string, 72);
  ("CLASS_DIAGONALARROWOPERATORS"%string, 72); ("LONGNAME_VERTICALBAR"%string, 74);
  ("LONGNAME_NOTVERTICALBAR"%string, 74); ("LONGNAME_DOUBLEVERTICALBAR"%string, 74);
  ("LONGNAME_NOTDOUBLEVERTICALBAR"%string, 74); ("CLASS_ORDERINGOPERATORS"%string, 76);
  ("CLASS_INEQUALITY"%string, 76); ("LONGNAME_DIRECTEDEDGE"%string, 79);
  ("LONGNAME_UNDIRECTEDEDGE"%string, 79); ("SEMISEMI"%string, 80);
  ("CLASS_UNIONOPERATORS"%string, 82); ("CLASS_INTERSECTIONOPERATORS"%string, 84);
  ("INFIX_PLUS"%string, 86); ("INFIX_MINUS"%string, 86);
  ("INFIX_LONGNAME_PLUSMINUS"%string, 86); ("INFIX_LONGNAME_MINUSPLUS"%string, 86);
  ("INFIX_LONGNAME_MINUS"%string, 86); ("LONGNAME_IMPLICITPLUS"%string, 88);
  ("LONGNAME_SUM"%string, 90); ("CLASS_INTEGRATIONOPERATORS"%string, 92);
  ("LONGNAME_EXPECTATIONE"%string, 92); ("LONGNAME_PROBABILITYPR"%string, 92);
  ("LONGNAME_CIRCLEPLUS"%string, 94); ("LONGNAME_CIRCLEMINUS"%string, 94);
  ("LONGNAME_CUP"%string, 96); ("LONGNAME_CAP"%string, 98);
  ("INFIX_LONGNAME_COPRODUCT"%string, 100); ("LONGNAME_VERTICALTILDE"%string, 102);
  ("LONGNAME_PRODUCT"%string, 104); ("LONGNAME_CONTINUEDFRACTIONK"%string, 104);
  ("LONGNAME_STAR"%string, 106); ("STAR"%string, 108);
  ("LONGNAME_TIMES"%string, 108); ("LONGNAME_INVISIBLETIMES"%string, 108);
  ("FAKE_IMPLICITTIMES"%string, 108); ("LONGNAME_CENTERDOT"%string, 110);
  ("INFIX_LONGNAME_CIRCLETIMES"%string, 112); ("LONGNAME_VEE"%string, 114);
  ("LONGNAME_WEDGE"%string, 116); ("LONGNAME_DIAMOND"%string, 118);
  ("LONGNAME_BACKSLASH"%string, 120); ("SLASH"%string, 122);
  ("LONGNAME_DIVIDE"%string, 122); ("LONGNAME_DIVIDES"%string, 122);
  ("LONGNAME_DIVISIONSLASH"%string, 122); ("PREFIX_MINUS"%string, 124);
  ("PREFIX_PLUS"%string, 124); ("PREFIX_LONGNAME_PLUSMINUS"%string, 124);
  ("PREFIX_LONGNAME_MINUSPLUS"%string, 124); ("PREFIX_LONGNAME_MINUS"%string, 124);
  ("PREFIX_LONGNAME_CIRCLETIMES"%string, 124); ("PREFIX_LONGNAME_COPRODUCT"%string, 124);
  ("DOT"%string, 126); ("LONGNAME_TENSORPRODUCT"%string, 128);
  ("LONGNAME_CROSS"%string, 130); ("LONGNAME_TENSORWEDGE"%string, 130);
  ("STARSTAR"%string, 132); ("LONGNAME_CIRCLEDOT"%string, 134);
  ("LONGNAME_PERMUTATIONPRODUCT"%string, 134); ("LONGNAME_SMALLCIRCLE"%string, 136);
  ("LONGNAME_SQUARE"%string, 138); ("LONGNAME_DEL"%string, 140);
  ("LONGNAME_PIECEWISE"%string, 142); ("LONGNAME_DIFFERENTIALD"%string, 144);
  ("LONGNAME_CAPITALDIFFERENTIALD"%string, 144); ("LONGNAME_SQRT"%string, 146);
  ("LONGNAME_CUBEROOT"%string, 146); ("CLASS_VERTICALARROWOPERATORS"%string, 148);
  ("CLASS_VERTICALVECTOROPERATORS"%string, 148); ("CARET"%string, 151);
  ("LESSGREATER"%string, 152); ("SINGLEQUOTE"%string, 154);
  ("LONGNAME_TRANSPOSE"%string, 156); ("LONGNAME_CONJUGATE"%string, 156);
  ("LONGNAME_CONJUGATETRANSPOSE"%string, 156); ("LONGNAME_HERMITIANCONJUGATE"%string, 156);
  ("POSTFIX_BANG"%string, 158); ("POSTFIX_BANGBANG"%string, 158);
  ("ATAT"%string, 161); ("SLASHAT"%string, 161);
  ("ATATAT"%string, 161); ("SLASHSLASHAT"%string, 161);
  ("TILDE"%string, 162); ("AT"%string, 165);
  ("LONGNAME_INVISIBLEAPPLICATION"%string, 165); ("LONGNAME_APPLICATION"%string, 166);
  ("SLASHSTAR"%string, 168); ("ATSTAR"%string, 170);
  ("PREFIX_PLUSPLUS"%string, 172); ("PREFIX_MINUSMINUS"%string, 172);
  ("POSTFIX_PLUSPLUS"%string, 174); ("POSTFIX_MINUSMINUS"%string, 174);
  ("CALL"%string, 176); ("INFIX_QUESTION"%string, 178);
  ("LINEARSYNTAX_BANG"%string, 180); ("LESSLESS"%string, 182);
  ("COLONCOLON"%string, 184); ("LONGNAME_INVISIBLEPREFIXSCRIPTBASE"%string, 186);
  ("LONGNAME_INVISIBLEPOSTFIXSCRIPTBASE"%string, 186); ("HIGHEST"%string, 188);
  ("SYMBOL"%string, 188); ("UNDER"%string, 188)
].
