(** GENERATED by tools/gen_tables.py from /repo/crates/wolfram-parser/src/generated/long_names_registration.rs.  Do not edit. *)
From Coq Require Import ZArith List String.
From Verif Require Import GenTokenKind.
Import ListNotations.
Local Open Scope Z_scope.

(** Code points as [Z], the encoding of CodePoint::as_i32 (code_point.rs). *)
Definition CP_LONGNAME_RAWTAB : Z := 9.
Definition CP_LONGNAME_NEWLINE : Z := 10.
Definition CP_LONGNAME_RAWRETURN : Z := 13.
Definition CP_LONGNAME_RAWESCAPE : Z := 27.
Definition CP_LONGNAME_RAWSPACE : Z := 32.
Definition CP_LONGNAME_RAWEXCLAMATION : Z := 33.
Definition CP_LONGNAME_RAWDOUBLEQUOTE : Z := (-6).
Definition CP_LONGNAME_RAWNUMBERSIGN : Z := 35.
Definition CP_LONGNAME_RAWDOLLAR : Z := 36.
Definition CP_LONGNAME_RAWPERCENT : Z := 37.
Definition CP_LONGNAME_RAWAMPERSAND : Z := 38.
Definition CP_LONGNAME_RAWQUOTE : Z := 39.
Definition CP_LONGNAME_RAWLEFTPARENTHESIS : Z := 40.
Definition CP_LONGNAME_RAWRIGHTPARENTHESIS : Z := 41.
Definition CP_LONGNAME_RAWSTAR : Z := 42.
Definition CP_LONGNAME_RAWPLUS : Z := 43.
Definition CP_LONGNAME_RAWCOMMA : Z := 44.
Definition CP_LONGNAME_RAWDASH : Z := 45.
Definition CP_LONGNAME_RAWDOT : Z := 46.
Definition CP_LONGNAME_RAWSLASH : Z := 47.
Definition CP_LONGNAME_RAWCOLON : Z := 58.
Definition CP_LONGNAME_RAWSEMICOLON : Z := 59.
Definition CP_LONGNAME_RAWLESS : Z := 60.
Definition CP_LONGNAME_RAWEQUAL : Z := 61.
Definition CP_LONGNAME_RAWGREATER : Z := 62.
Definition CP_LONGNAME_RAWQUESTION : Z := 63.
Definition CP_LONGNAME_RAWAT : Z := 64.
Definition CP_LONGNAME_RAWLEFTBRACKET : Z := 91.
Definition CP_LONGNAME_RAWBACKSLASH : Z := (-7).
Definition CP_LONGNAME_RAWRIGHTBRACKET : Z := 93.
Definition CP_LONGNAME_RAWWEDGE : Z := 94.
Definition CP_LONGNAME_RAWUNDERSCORE : Z := 95.
Definition CP_LONGNAME_RAWBACKQUOTE : Z := 96.
Definition CP_LONGNAME_RAWLEFTBRACE : Z := 123.
Definition CP_LONGNAME_RAWVERTICALBAR : Z := 124.
Definition CP_LONGNAME_RAWRIGHTBRACE : Z := 125.
Definition CP_LONGNAME_RAWTILDE : Z := 126.
Definition CP_LONGNAME_NONBREAKINGSPACE : Z := 160.
Definition CP_LONGNAME_DOWNEXCLAMATION : Z := 161.
Definition CP_LONGNAME_CENT : Z := 162.
Definition CP_LONGNAME_STERLING : Z := 163.
Definition CP_LONGNAME_CURRENCY : Z := 164.
Definition CP_LONGNAME_YEN : Z := 165.
Definition CP_LONGNAME_SECTION : Z := 167.
Definition CP_LONGNAME_DOUBLEDOT : Z := 168.
Definition CP_LONGNAME_COPYRIGHT : Z := 169.
Definition CP_LONGNAME_LEFTGUILLEMET : Z := 171.
Definition CP_LONGNAME_NOT : Z := 172.
Definition CP_LONGNAME_DISCRETIONARYHYPHEN : Z := 173.
Definition CP_LONGNAME_REGISTEREDTRADEMARK : Z := 174.
Definition CP_LONGNAME_DEGREE : Z := 176.
Definition CP_LONGNAME_PLUSMINUS : Z := 177.
Definition CP_LONGNAME_MICRO : Z := 181.
Definition CP_LONGNAME_PARAGRAPH : Z := 182.
Definition CP_LONGNAME_CENTERDOT : Z := 183.
Definition CP_LONGNAME_CEDILLA : Z := 184.
Definition CP_LONGNAME_RIGHTGUILLEMET : Z := 187.
Definition CP_LONGNAME_DOWNQUESTION : Z := 191.
Definition CP_LONGNAME_CAPITALAGRAVE : Z := 192.
Definition CP_LONGNAME_CAPITALAACUTE : Z := 193.
Definition CP_LONGNAME_CAPITALAHAT : Z := 194.
Definition CP_LONGNAME_CAPITALATILDE : Z := 195.
Definition CP_LONGNAME_CAPITALADOUBLEDOT : Z := 196.
Definition CP_LONGNAME_CAPITALARING : Z := 197.
Definition CP_LONGNAME_CAPITALAE : Z := 198.
Definition CP_LONGNAME_CAPITALCCEDILLA : Z := 199.
Definition CP_LONGNAME_CAPITALEGRAVE : Z := 200.
Definition CP_LONGNAME_CAPITALEACUTE : Z := 201.
Definition CP_LONGNAME_CAPITALEHAT : Z := 202.
Definition CP_LONGNAME_CAPITALEDOUBLEDOT : Z := 203.
Definition CP_LONGNAME_CAPITALIGRAVE : Z := 204.
Definition CP_LONGNAME_CAPITALIACUTE : Z := 205.
Definition CP_LONGNAME_CAPITALIHAT : Z := 206.
Definition CP_LONGNAME_CAPITALIDOUBLEDOT : Z := 207.
Definition CP_LONGNAME_CAPITALETH : Z := 208.
Definition CP_LONGNAME_CAPITALNTILDE : Z := 209.
Definition CP_LONGNAME_CAPITALOGRAVE : Z := 210.
Definition CP_LONGNAME_CAPITALOACUTE : Z := 211.
Definition CP_LONGNAME_CAPITALOHAT : Z := 212.
Definition CP_LONGNAME_CAPITALOTILDE : Z := 213.
Definition CP_LONGNAME_CAPITALODOUBLEDOT : Z := 214.
Definition CP_LONGNAME_TIMES : Z := 215.
Definition CP_LONGNAME_CAPITALOSLASH : Z := 216.
Definition CP_LONGNAME_CAPITALUGRAVE : Z := 217.
Definition CP_LONGNAME_CAPITALUACUTE : Z := 218.
Definition CP_LONGNAME_CAPITALUHAT : Z := 219.
Definition CP_LONGNAME_CAPITALUDOUBLEDOT : Z := 220.
Definition CP_LONGNAME_CAPITALYACUTE : Z := 221.
Definition CP_LONGNAME_CAPITALTHORN : Z := 222.
Definition CP_LONGNAME_SZ : Z := 223.
Definition CP_LONGNAME_AGRAVE : Z := 224.
Definition CP_LONGNAME_AACUTE : Z := 225.
Definition CP_LONGNAME_AHAT : Z := 226.
Definition CP_LONGNAME_ATILDE : Z := 227.
Definition CP_LONGNAME_ADOUBLEDOT : Z := 228.
Definition CP_LONGNAME_ARING : Z := 229.
Definition CP_LONGNAME_AE : Z := 230.
Definition CP_LONGNAME_CCEDILLA : Z := 231.
Definition CP_LONGNAME_EGRAVE : Z := 232.
Definition CP_LONGNAME_EACUTE : Z := 233.
Definition CP_LONGNAME_EHAT : Z := 234.
Definition CP_LONGNAME_EDOUBLEDOT : Z := 235.
Definition CP_LONGNAME_IGRAVE : Z := 236.
Definition CP_LONGNAME_IACUTE : Z := 237.
Definition CP_LONGNAME_IHAT : Z := 238.
Definition CP_LONGNAME_IDOUBLEDOT : Z := 239.
Definition CP_LONGNAME_ETH : Z := 240.
Definition CP_LONGNAME_NTILDE : Z := 241.
Definition CP_LONGNAME_OGRAVE : Z := 242.
Definition CP_LONGNAME_OACUTE : Z := 243.
Definition CP_LONGNAME_OHAT : Z := 244.
Definition CP_LONGNAME_OTILDE : Z := 245.
Definition CP_LONGNAME_ODOUBLEDOT : Z := 246.
Definition CP_LONGNAME_DIVIDE : Z := 247.
Definition CP_LONGNAME_OSLASH : Z := 248.
Definition CP_LONGNAME_UGRAVE : Z := 249.
Definition CP_LONGNAME_UACUTE : Z := 250.
Definition CP_LONGNAME_UHAT : Z := 251.
Definition CP_LONGNAME_UDOUBLEDOT : Z := 252.
Definition CP_LONGNAME_YACUTE : Z := 253.
Definition CP_LONGNAME_THORN : Z := 254.
Definition CP_LONGNAME_YDOUBLEDOT : Z := 255.
Definition CP_LONGNAME_CAPITALABAR : Z := 256.
Definition CP_LONGNAME_ABAR : Z := 257.
Definition CP_LONGNAME_CAPITALACUP : Z := 258.
Definition CP_LONGNAME_ACUP : Z := 259.
Definition CP_LONGNAME_CAPITALCACUTE : Z := 262.
Definition CP_LONGNAME_CACUTE : Z := 263.
Definition CP_LONGNAME_CAPITALCHACEK : Z := 268.
Definition CP_LONGNAME_CHACEK : Z := 269.
Definition CP_LONGNAME_CAPITALDHACEK : Z := 270.
Definition CP_LONGNAME_DHACEK : Z := 271.
Definition CP_LONGNAME_CAPITALEBAR : Z := 274.
Definition CP_LONGNAME_EBAR : Z := 275.
Definition CP_LONGNAME_CAPITALECUP : Z := 276.
Definition CP_LONGNAME_ECUP : Z := 277.
Definition CP_LONGNAME_CAPITALEHACEK : Z := 282.
Definition CP_LONGNAME_EHACEK : Z := 283.
Definition CP_LONGNAME_CAPITALICUP : Z := 300.
Definition CP_LONGNAME_ICUP : Z := 301.
Definition CP_LONGNAME_DOTLESSI : Z := 305.
Definition CP_LONGNAME_CAPITALLSLASH : Z := 321.
Definition CP_LONGNAME_LSLASH : Z := 322.
Definition CP_LONGNAME_CAPITALNHACEK : Z := 327.
Definition CP_LONGNAME_NHACEK : Z := 328.
Definition CP_LONGNAME_CAPITALODOUBLEACUTE : Z := 336.
Definition CP_LONGNAME_ODOUBLEACUTE : Z := 337.
Definition CP_LONGNAME_CAPITALOE : Z := 338.
Definition CP_LONGNAME_OE : Z := 339.
Definition CP_LONGNAME_CAPITALRHACEK : Z := 344.
Definition CP_LONGNAME_RHACEK : Z := 345.
Definition CP_LONGNAME_CAPITALSHACEK : Z := 352.
Definition CP_LONGNAME_SHACEK : Z := 353.
Definition CP_LONGNAME_CAPITALTHACEK : Z := 356.
Definition CP_LONGNAME_THACEK : Z := 357.
Definition CP_LONGNAME_CAPITALURING : Z := 366.
Definition CP_LONGNAME_URING : Z := 367.
Definition CP_LONGNAME_CAPITALUDOUBLEACUTE : Z := 368.
Definition CP_LONGNAME_UDOUBLEACUTE : Z := 369.
Definition CP_LONGNAME_CAPITALZHACEK : Z := 381.
Definition CP_LONGNAME_ZHACEK : Z := 382.
Definition CP_LONGNAME_FLORIN : Z := 402.
Definition CP_LONGNAME_HACEK : Z := 711.
Definition CP_LONGNAME_BREVE : Z := 728.
Definition CP_LONGNAME_CAPITALALPHA : Z := 913.
Definition CP_LONGNAME_CAPITALBETA : Z := 914.
Definition CP_LONGNAME_CAPITALGAMMA : Z := 915.
Definition CP_LONGNAME_CAPITALDELTA : Z := 916.
Definition CP_LONGNAME_CAPITALEPSILON : Z := 917.
Definition CP_LONGNAME_CAPITALZETA : Z := 918.
Definition CP_LONGNAME_CAPITALETA : Z := 919.
Definition CP_LONGNAME_CAPITALTHETA : Z := 920.
Definition CP_LONGNAME_CAPITALIOTA : Z := 921.
Definition CP_LONGNAME_CAPITALKAPPA : Z := 922.
Definition CP_LONGNAME_CAPITALLAMBDA : Z := 923.
Definition CP_LONGNAME_CAPITALMU : Z := 924.
Definition CP_LONGNAME_CAPITALNU : Z := 925.
Definition CP_LONGNAME_CAPITALXI : Z := 926.
Definition CP_LONGNAME_CAPITALOMICRON : Z := 927.
Definition CP_LONGNAME_CAPITALPI : Z := 928.
Definition CP_LONGNAME_CAPITALRHO : Z := 929.
Definition CP_LONGNAME_CAPITALSIGMA : Z := 931.
Definition CP_LONGNAME_CAPITALTAU : Z := 932.
Definition CP_LONGNAME_CAPITALUPSILON : Z := 933.
Definition CP_LONGNAME_CAPITALPHI : Z := 934.
Definition CP_LONGNAME_CAPITALCHI : Z := 935.
Definition CP_LONGNAME_CAPITALPSI : Z := 936.
Definition CP_LONGNAME_CAPITALOMEGA : Z := 937.
Definition CP_LONGNAME_ALPHA : Z := 945.
Definition CP_LONGNAME_BETA : Z := 946.
Definition CP_LONGNAME_GAMMA : Z := 947.
Definition CP_LONGNAME_DELTA : Z := 948.
Definition CP_LONGNAME_CURLYEPSILON : Z := 949.
Definition CP_LONGNAME_ZETA : Z := 950.
Definition CP_LONGNAME_ETA : Z := 951.
Definition CP_LONGNAME_THETA : Z := 952.
Definition CP_LONGNAME_IOTA : Z := 953.
Definition CP_LONGNAME_KAPPA : Z := 954.
Definition CP_LONGNAME_LAMBDA : Z := 955.
Definition CP_LONGNAME_MU : Z := 956.
Definition CP_LONGNAME_NU : Z := 957.
Definition CP_LONGNAME_XI : Z := 958.
Definition CP_LONGNAME_OMICRON : Z := 959.
Definition CP_LONGNAME_PI : Z := 960.
Definition CP_LONGNAME_RHO : Z := 961.
Definition CP_LONGNAME_FINALSIGMA : Z := 962.
Definition CP_LONGNAME_SIGMA : Z := 963.
Definition CP_LONGNAME_TAU : Z := 964.
Definition CP_LONGNAME_UPSILON : Z := 965.
Definition CP_LONGNAME_CURLYPHI : Z := 966.
Definition CP_LONGNAME_CHI : Z := 967.
Definition CP_LONGNAME_PSI : Z := 968.
Definition CP_LONGNAME_OMEGA : Z := 969.
Definition CP_LONGNAME_CURLYTHETA : Z := 977.
Definition CP_LONGNAME_CURLYCAPITALUPSILON : Z := 978.
Definition CP_LONGNAME_PHI : Z := 981.
Definition CP_LONGNAME_CURLYPI : Z := 982.
Definition CP_LONGNAME_CAPITALSTIGMA : Z := 986.
Definition CP_LONGNAME_STIGMA : Z := 987.
Definition CP_LONGNAME_CAPITALDIGAMMA : Z := 988.
Definition CP_LONGNAME_DIGAMMA : Z := 989.
Definition CP_LONGNAME_CAPITALKOPPA : Z := 990.
Definition CP_LONGNAME_KOPPA : Z := 991.
Definition CP_LONGNAME_CAPITALSAMPI : Z := 992.
Definition CP_LONGNAME_SAMPI : Z := 993.
Definition CP_LONGNAME_CURLYKAPPA : Z := 1008.
Definition CP_LONGNAME_CURLYRHO : Z := 1009.
Definition CP_LONGNAME_EPSILON : Z := 1013.
Definition CP_LONGNAME_THICKSPACE : Z := 8197.
Definition CP_LONGNAME_THINSPACE : Z := 8201.
Definition CP_LONGNAME_VERYTHINSPACE : Z := 8202.
Definition CP_LONGNAME_HYPHEN : Z := 8208.
Definition CP_LONGNAME_DASH : Z := 8211.
Definition CP_LONGNAME_LONGDASH : Z := 8212.
Definition CP_LONGNAME_OPENCURLYQUOTE : Z := 8216.
Definition CP_LONGNAME_CLOSECURLYQUOTE : Z := 8217.
Definition CP_LONGNAME_OPENCURLYDOUBLEQUOTE : Z := 8220.
Definition CP_LONGNAME_CLOSECURLYDOUBLEQUOTE : Z := 8221.
Definition CP_LONGNAME_DAGGER : Z := 8224.
Definition CP_LONGNAME_DOUBLEDAGGER : Z := 8225.
Definition CP_LONGNAME_BULLET : Z := 8226.
Definition CP_LONGNAME_ELLIPSIS : Z := 8230.
Definition CP_LONGNAME_LINESEPARATOR : Z := 8232.
Definition CP_LONGNAME_PARAGRAPHSEPARATOR : Z := 8233.
Definition CP_LONGNAME_PRIME : Z := 8242.
Definition CP_LONGNAME_DOUBLEPRIME : Z := 8243.
Definition CP_LONGNAME_REVERSEPRIME : Z := 8245.
Definition CP_LONGNAME_REVERSEDOUBLEPRIME : Z := 8246.
Definition CP_LONGNAME_SKELETONINDICATOR : Z := 8259.
Definition CP_LONGNAME_MEDIUMSPACE : Z := 8287.
Definition CP_LONGNAME_NOBREAK : Z := 8288.
Definition CP_LONGNAME_INVISIBLETIMES : Z := 8290.
Definition CP_LONGNAME_EURO : Z := 8364.
Definition CP_LONGNAME_RUPEE : Z := 8377.
Definition CP_LONGNAME_SCRIPTG : Z := 8458.
Definition CP_LONGNAME_SCRIPTCAPITALH : Z := 8459.
Definition CP_LONGNAME_GOTHICCAPITALH : Z := 8460.
Definition CP_LONGNAME_HBAR : Z := 8463.
Definition CP_LONGNAME_SCRIPTCAPITALI : Z := 8464.
Definition CP_LONGNAME_GOTHICCAPITALI : Z := 8465.
Definition CP_LONGNAME_SCRIPTCAPITALL : Z := 8466.
Definition CP_LONGNAME_SCRIPTL : Z := 8467.
Definition CP_LONGNAME_WEIERSTRASSP : Z := 8472.
Definition CP_LONGNAME_SCRIPTCAPITALR : Z := 8475.
Definition CP_LONGNAME_GOTHICCAPITALR : Z := 8476.
Definition CP_LONGNAME_TRADEMARK : Z := 8482.
Definition CP_LONGNAME_MHO : Z := 8487.
Definition CP_LONGNAME_GOTHICCAPITALZ : Z := 8488.
Definition CP_LONGNAME_ANGSTROM : Z := 8491.
Definition CP_LONGNAME_SCRIPTCAPITALB : Z := 8492.
Definition CP_LONGNAME_GOTHICCAPITALC : Z := 8493.
Definition CP_LONGNAME_SCRIPTE : Z := 8495.
Definition CP_LONGNAME_SCRIPTCAPITALE : Z := 8496.
Definition CP_LONGNAME_SCRIPTCAPITALF : Z := 8497.
Definition CP_LONGNAME_SCRIPTCAPITALM : Z := 8499.
Definition CP_LONGNAME_SCRIPTO : Z := 8500.
Definition CP_LONGNAME_ALEPH : Z := 8501.
Definition CP_LONGNAME_BET : Z := 8502.
Definition CP_LONGNAME_GIMEL : Z := 8503.
Definition CP_LONGNAME_DALET : Z := 8504.
Definition CP_LONGNAME_LEFTARROW : Z := 8592.
Definition CP_LONGNAME_UPARROW : Z := 8593.
Definition CP_LONGNAME_RIGHTARROW : Z := 8594.
Definition CP_LONGNAME_DOWNARROW : Z := 8595.
Definition CP_LONGNAME_LEFTRIGHTARROW : Z := 8596.
Definition CP_LONGNAME_UPDOWNARROW : Z := 8597.
Definition CP_LONGNAME_UPPERLEFTARROW : Z := 8598.
Definition CP_LONGNAME_UPPERRIGHTARROW : Z := 8599.
Definition CP_LONGNAME_LOWERRIGHTARROW : Z := 8600.
Definition CP_LONGNAME_LOWERLEFTARROW : Z := 8601.
Definition CP_LONGNAME_LEFTTEEARROW : Z := 8612.
Definition CP_LONGNAME_UPTEEARROW : Z := 8613.
Definition CP_LONGNAME_RIGHTTEEARROW : Z := 8614.
Definition CP_LONGNAME_DOWNTEEARROW : Z := 8615.
Definition CP_LONGNAME_RETURNINDICATOR : Z := 8629.
Definition CP_LONGNAME_LEFTVECTOR : Z := 8636.
Definition CP_LONGNAME_DOWNLEFTVECTOR : Z := 8637.
Definition CP_LONGNAME_RIGHTUPVECTOR : Z := 8638.
Definition CP_LONGNAME_LEFTUPVECTOR : Z := 8639.
Definition CP_LONGNAME_RIGHTVECTOR : Z := 8640.
Definition CP_LONGNAME_DOWNRIGHTVECTOR : Z := 8641.
Definition CP_LONGNAME_RIGHTDOWNVECTOR : Z := 8642.
Definition CP_LONGNAME_LEFTDOWNVECTOR : Z := 8643.
Definition CP_LONGNAME_RIGHTARROWLEFTARROW : Z := 8644.
Definition CP_LONGNAME_UPARROWDOWNARROW : Z := 8645.
Definition CP_LONGNAME_LEFTARROWRIGHTARROW : Z := 8646.
Definition CP_LONGNAME_REVERSEEQUILIBRIUM : Z := 8651.
Definition CP_LONGNAME_EQUILIBRIUM : Z := 8652.
Definition CP_LONGNAME_DOUBLELEFTARROW : Z := 8656.
Definition CP_LONGNAME_DOUBLEUPARROW : Z := 8657.
Definition CP_LONGNAME_DOUBLERIGHTARROW : Z := 8658.
Definition CP_LONGNAME_DOUBLEDOWNARROW : Z := 8659.
Definition CP_LONGNAME_DOUBLELEFTRIGHTARROW : Z := 8660.
Definition CP_LONGNAME_DOUBLEUPDOWNARROW : Z := 8661.
Definition CP_LONGNAME_LEFTARROWBAR : Z := 8676.
Definition CP_LONGNAME_RIGHTARROWBAR : Z := 8677.
Definition CP_LONGNAME_DOWNARROWUPARROW : Z := 8693.
Definition CP_LONGNAME_FORALL : Z := 8704.
Definition CP_LONGNAME_PARTIALD : Z := 8706.
Definition CP_LONGNAME_EXISTS : Z := 8707.
Definition CP_LONGNAME_NOTEXISTS : Z := 8708.
Definition CP_LONGNAME_EMPTYSET : Z := 8709.
Definition CP_LONGNAME_DEL : Z := 8711.
Definition CP_LONGNAME_ELEMENT : Z := 8712.
Definition CP_LONGNAME_NOTELEMENT : Z := 8713.
Definition CP_LONGNAME_REVERSEELEMENT : Z := 8715.
Definition CP_LONGNAME_NOTREVERSEELEMENT : Z := 8716.
Definition CP_LONGNAME_SUCHTHAT : Z := 8717.
Definition CP_LONGNAME_PRODUCT : Z := 8719.
Definition CP_LONGNAME_COPRODUCT : Z := 8720.
Definition CP_LONGNAME_SUM : Z := 8721.
Definition CP_LONGNAME_MINUS : Z := 8722.
Definition CP_LONGNAME_MINUSPLUS : Z := 8723.
Definition CP_LONGNAME_DIVISIONSLASH : Z := 8725.
Definition CP_LONGNAME_BACKSLASH : Z := 8726.
Definition CP_LONGNAME_SMALLCIRCLE : Z := 8728.
Definition CP_LONGNAME_SQRT : Z := 8730.
Definition CP_LONGNAME_CUBEROOT : Z := 8731.
Definition CP_LONGNAME_PROPORTIONAL : Z := 8733.
Definition CP_LONGNAME_INFINITY : Z := 8734.
Definition CP_LONGNAME_RIGHTANGLE : Z := 8735.
Definition CP_LONGNAME_ANGLE : Z := 8736.
Definition CP_LONGNAME_MEASUREDANGLE : Z := 8737.
Definition CP_LONGNAME_SPHERICALANGLE : Z := 8738.
Definition CP_LONGNAME_DIVIDES : Z := 8739.
Definition CP_LONGNAME_DOUBLEVERTICALBAR : Z := 8741.
Definition CP_LONGNAME_NOTDOUBLEVERTICALBAR : Z := 8742.
Definition CP_LONGNAME_AND : Z := 8743.
Definition CP_LONGNAME_OR : Z := 8744.
Definition CP_LONGNAME_INTEGRAL : Z := 8747.
Definition CP_LONGNAME_CONTOURINTEGRAL : Z := 8750.
Definition CP_LONGNAME_DOUBLECONTOURINTEGRAL : Z := 8751.
Definition CP_LONGNAME_CLOCKWISECONTOURINTEGRAL : Z := 8754.
Definition CP_LONGNAME_COUNTERCLOCKWISECONTOURINTEGRAL : Z := 8755.
Definition CP_LONGNAME_THEREFORE : Z := 8756.
Definition CP_LONGNAME_BECAUSE : Z := 8757.
Definition CP_LONGNAME_COLON : Z := 8758.
Definition CP_LONGNAME_PROPORTION : Z := 8759.
Definition CP_LONGNAME_TILDE : Z := 8764.
Definition CP_LONGNAME_VERTICALTILDE : Z := 8768.
Definition CP_LONGNAME_NOTTILDE : Z := 8769.
Definition CP_LONGNAME_EQUALTILDE : Z := 8770.
Definition CP_LONGNAME_TILDEEQUAL : Z := 8771.
Definition CP_LONGNAME_NOTTILDEEQUAL : Z := 8772.
Definition CP_LONGNAME_TILDEFULLEQUAL : Z := 8773.
Definition CP_LONGNAME_NOTTILDEFULLEQUAL : Z := 8775.
Definition CP_LONGNAME_TILDETILDE : Z := 8776.
Definition CP_LONGNAME_NOTTILDETILDE : Z := 8777.
Definition CP_LONGNAME_CUPCAP : Z := 8781.
Definition CP_LONGNAME_HUMPDOWNHUMP : Z := 8782.
Definition CP_LONGNAME_HUMPEQUAL : Z := 8783.
Definition CP_LONGNAME_DOTEQUAL : Z := 8784.
Definition CP_LONGNAME_NOTEQUAL : Z := 8800.
Definition CP_LONGNAME_CONGRUENT : Z := 8801.
Definition CP_LONGNAME_NOTCONGRUENT : Z := 8802.
Definition CP_LONGNAME_LESSEQUAL : Z := 8804.
Definition CP_LONGNAME_GREATEREQUAL : Z := 8805.
Definition CP_LONGNAME_LESSFULLEQUAL : Z := 8806.
Definition CP_LONGNAME_GREATERFULLEQUAL : Z := 8807.
Definition CP_LONGNAME_NOTLESSFULLEQUAL : Z := 8808.
Definition CP_LONGNAME_NOTGREATERFULLEQUAL : Z := 8809.
Definition CP_LONGNAME_LESSLESS : Z := 8810.
Definition CP_LONGNAME_GREATERGREATER : Z := 8811.
Definition CP_LONGNAME_NOTCUPCAP : Z := 8813.
Definition CP_LONGNAME_NOTLESS : Z := 8814.
Definition CP_LONGNAME_NOTGREATER : Z := 8815.
Definition CP_LONGNAME_NOTLESSEQUAL : Z := 8816.
Definition CP_LONGNAME_NOTGREATEREQUAL : Z := 8817.
Definition CP_LONGNAME_LESSTILDE : Z := 8818.
Definition CP_LONGNAME_GREATERTILDE : Z := 8819.
Definition CP_LONGNAME_NOTLESSTILDE : Z := 8820.
Definition CP_LONGNAME_NOTGREATERTILDE : Z := 8821.
Definition CP_LONGNAME_LESSGREATER : Z := 8822.
Definition CP_LONGNAME_GREATERLESS : Z := 8823.
Definition CP_LONGNAME_NOTLESSGREATER : Z := 8824.
Definition CP_LONGNAME_NOTGREATERLESS : Z := 8825.
Definition CP_LONGNAME_PRECEDES : Z := 8826.
Definition CP_LONGNAME_SUCCEEDS : Z := 8827.
Definition CP_LONGNAME_PRECEDESSLANTEQUAL : Z := 8828.
Definition CP_LONGNAME_SUCCEEDSSLANTEQUAL : Z := 8829.
Definition CP_LONGNAME_PRECEDESTILDE : Z := 8830.
Definition CP_LONGNAME_SUCCEEDSTILDE : Z := 8831.
Definition CP_LONGNAME_NOTPRECEDES : Z := 8832.
Definition CP_LONGNAME_NOTSUCCEEDS : Z := 8833.
Definition CP_LONGNAME_SUBSET : Z := 8834.
Definition CP_LONGNAME_SUPERSET : Z := 8835.
Definition CP_LONGNAME_NOTSUBSET : Z := 8836.
Definition CP_LONGNAME_NOTSUPERSET : Z := 8837.
Definition CP_LONGNAME_SUBSETEQUAL : Z := 8838.
Definition CP_LONGNAME_SUPERSETEQUAL : Z := 8839.
Definition CP_LONGNAME_NOTSUBSETEQUAL : Z := 8840.
Definition CP_LONGNAME_NOTSUPERSETEQUAL : Z := 8841.
Definition CP_LONGNAME_UNIONPLUS : Z := 8846.
Definition CP_LONGNAME_SQUARESUBSET : Z := 8847.
Definition CP_LONGNAME_SQUARESUPERSET : Z := 8848.
Definition CP_LONGNAME_SQUARESUBSETEQUAL : Z := 8849.
Definition CP_LONGNAME_SQUARESUPERSETEQUAL : Z := 8850.
Definition CP_LONGNAME_SQUAREINTERSECTION : Z := 8851.
Definition CP_LONGNAME_SQUAREUNION : Z := 8852.
Definition CP_LONGNAME_CIRCLEPLUS : Z := 8853.
Definition CP_LONGNAME_CIRCLEMINUS : Z := 8854.
Definition CP_LONGNAME_CIRCLETIMES : Z := 8855.
Definition CP_LONGNAME_CIRCLEDOT : Z := 8857.
Definition CP_LONGNAME_RIGHTTEE : Z := 8866.
Definition CP_LONGNAME_LEFTTEE : Z := 8867.
Definition CP_LONGNAME_DOWNTEE : Z := 8868.
Definition CP_LONGNAME_UPTEE : Z := 8869.
Definition CP_LONGNAME_DOUBLERIGHTTEE : Z := 8872.
Definition CP_LONGNAME_LEFTTRIANGLE : Z := 8882.
Definition CP_LONGNAME_RIGHTTRIANGLE : Z := 8883.
Definition CP_LONGNAME_LEFTTRIANGLEEQUAL : Z := 8884.
Definition CP_LONGNAME_RIGHTTRIANGLEEQUAL : Z := 8885.
Definition CP_LONGNAME_XOR : Z := 8891.
Definition CP_LONGNAME_NAND : Z := 8892.
Definition CP_LONGNAME_NOR : Z := 8893.
Definition CP_LONGNAME_WEDGE : Z := 8896.
Definition CP_LONGNAME_VEE : Z := 8897.
Definition CP_LONGNAME_INTERSECTION : Z := 8898.
Definition CP_LONGNAME_UNION : Z := 8899.
Definition CP_LONGNAME_DIAMOND : Z := 8900.
Definition CP_LONGNAME_STAR : Z := 8902.
Definition CP_LONGNAME_LESSEQUALGREATER : Z := 8922.
Definition CP_LONGNAME_GREATEREQUALLESS : Z := 8923.
Definition CP_LONGNAME_NOTPRECEDESSLANTEQUAL : Z := 8928.
Definition CP_LONGNAME_NOTSUCCEEDSSLANTEQUAL : Z := 8929.
Definition CP_LONGNAME_NOTSQUARESUBSETEQUAL : Z := 8930.
Definition CP_LONGNAME_NOTSQUARESUPERSETEQUAL : Z := 8931.
Definition CP_LONGNAME_NOTPRECEDESTILDE : Z := 8936.
Definition CP_LONGNAME_NOTSUCCEEDSTILDE : Z := 8937.
Definition CP_LONGNAME_NOTLEFTTRIANGLE : Z := 8938.
Definition CP_LONGNAME_NOTRIGHTTRIANGLE : Z := 8939.
Definition CP_LONGNAME_NOTLEFTTRIANGLEEQUAL : Z := 8940.
Definition CP_LONGNAME_NOTRIGHTTRIANGLEEQUAL : Z := 8941.
Definition CP_LONGNAME_VERTICALELLIPSIS : Z := 8942.
Definition CP_LONGNAME_CENTERELLIPSIS : Z := 8943.
Definition CP_LONGNAME_ASCENDINGELLIPSIS : Z := 8944.
Definition CP_LONGNAME_DESCENDINGELLIPSIS : Z := 8945.
Definition CP_LONGNAME_DIAMETER : Z := 8960.
Definition CP_LONGNAME_LEFTCEILING : Z := 8968.
Definition CP_LONGNAME_RIGHTCEILING : Z := 8969.
Definition CP_LONGNAME_LEFTFLOOR : Z := 8970.
Definition CP_LONGNAME_RIGHTFLOOR : Z := 8971.
Definition CP_LONGNAME_CLOVERLEAF : Z := 8984.
Definition CP_LONGNAME_WATCHICON : Z := 8986.
Definition CP_LONGNAME_CAP : Z := 8994.
Definition CP_LONGNAME_CUP : Z := 8995.
Definition CP_LONGNAME_LEFTANGLEBRACKET : Z := 9001.
Definition CP_LONGNAME_RIGHTANGLEBRACKET : Z := 9002.
Definition CP_LONGNAME_OVERBRACKET : Z := 9140.
Definition CP_LONGNAME_UNDERBRACKET : Z := 9141.
Definition CP_LONGNAME_SPACEINDICATOR : Z := 9251.
Definition CP_LONGNAME_HORIZONTALLINE : Z := 9472.
Definition CP_LONGNAME_VERTICALLINE : Z := 9474.
Definition CP_LONGNAME_FILLEDSQUARE : Z := 9632.
Definition CP_LONGNAME_EMPTYSQUARE : Z := 9633.
Definition CP_LONGNAME_FILLEDVERYSMALLSQUARE : Z := 9642.
Definition CP_LONGNAME_EMPTYVERYSMALLSQUARE : Z := 9643.
Definition CP_LONGNAME_FILLEDRECTANGLE : Z := 9646.
Definition CP_LONGNAME_EMPTYRECTANGLE : Z := 9647.
Definition CP_LONGNAME_FILLEDUPTRIANGLE : Z := 9650.
Definition CP_LONGNAME_EMPTYUPTRIANGLE : Z := 9651.
Definition CP_LONGNAME_UPPOINTER : Z := 9652.
Definition CP_LONGNAME_FILLEDRIGHTTRIANGLE : Z := 9654.
Definition CP_LONGNAME_RIGHTPOINTER : Z := 9656.
Definition CP_LONGNAME_FILLEDDOWNTRIANGLE : Z := 9660.
Definition CP_LONGNAME_EMPTYDOWNTRIANGLE : Z := 9661.
Definition CP_LONGNAME_DOWNPOINTER : Z := 9662.
Definition CP_LONGNAME_FILLEDLEFTTRIANGLE : Z := 9664.
Definition CP_LONGNAME_LEFTPOINTER : Z := 9666.
Definition CP_LONGNAME_FILLEDDIAMOND : Z := 9670.
Definition CP_LONGNAME_EMPTYDIAMOND : Z := 9671.
Definition CP_LONGNAME_EMPTYCIRCLE : Z := 9675.
Definition CP_LONGNAME_FILLEDCIRCLE : Z := 9679.
Definition CP_LONGNAME_EMPTYSMALLCIRCLE : Z := 9702.
Definition CP_LONGNAME_EMPTYSMALLSQUARE : Z := 9723.
Definition CP_LONGNAME_FILLEDSMALLSQUARE : Z := 9724.
Definition CP_LONGNAME_FIVEPOINTEDSTAR : Z := 9733.
Definition CP_LONGNAME_SUN : Z := 9737.
Definition CP_LONGNAME_CHECKMARKEDBOX : Z := 9745.
Definition CP_LONGNAME_CHECKEDBOX : Z := 9746.
Definition CP_LONGNAME_SADSMILEY : Z := 9785.
Definition CP_LONGNAME_HAPPYSMILEY : Z := 9786.
Definition CP_LONGNAME_MOON : Z := 9790.
Definition CP_LONGNAME_MERCURY : Z := 9791.
Definition CP_LONGNAME_VENUS : Z := 9792.
Definition CP_LONGNAME_MARS : Z := 9794.
Definition CP_LONGNAME_JUPITER : Z := 9795.
Definition CP_LONGNAME_SATURN : Z := 9796.
Definition CP_LONGNAME_NEPTUNE : Z := 9798.
Definition CP_LONGNAME_PLUTO : Z := 9799.
Definition CP_LONGNAME_ARIESSIGN : Z := 9800.
Definition CP_LONGNAME_TAURUSSIGN : Z := 9801.
Definition CP_LONGNAME_GEMINISIGN : Z := 9802.
Definition CP_LONGNAME_CANCERSIGN : Z := 9803.
Definition CP_LONGNAME_LEOSIGN : Z := 9804.
Definition CP_LONGNAME_VIRGOSIGN : Z := 9805.
Definition CP_LONGNAME_LIBRASIGN : Z := 9806.
Definition CP_LONGNAME_SCORPIOSIGN : Z := 9807.
Definition CP_LONGNAME_SAGITTARIUSSIGN : Z := 9808.
Definition CP_LONGNAME_CAPRICORNSIGN : Z := 9809.
Definition CP_LONGNAME_AQUARIUSSIGN : Z := 9810.
Definition CP_LONGNAME_PISCESSIGN : Z := 9811.
Definition CP_LONGNAME_WHITEKING : Z := 9812.
Definition CP_LONGNAME_WHITEQUEEN : Z := 9813.
Definition CP_LONGNAME_WHITEROOK : Z := 9814.
Definition CP_LONGNAME_WHITEBISHOP : Z := 9815.
Definition CP_LONGNAME_WHITEKNIGHT : Z := 9816.
Definition CP_LONGNAME_WHITEPAWN : Z := 9817.
Definition CP_LONGNAME_BLACKKING : Z := 9818.
Definition CP_LONGNAME_BLACKQUEEN : Z := 9819.
Definition CP_LONGNAME_BLACKROOK : Z := 9820.
Definition CP_LONGNAME_BLACKBISHOP : Z := 9821.
Definition CP_LONGNAME_BLACKKNIGHT : Z := 9822.
Definition CP_LONGNAME_BLACKPAWN : Z := 9823.
Definition CP_LONGNAME_SPADESUIT : Z := 9824.
Definition CP_LONGNAME_HEARTSUIT : Z := 9825.
Definition CP_LONGNAME_DIAMONDSUIT : Z := 9826.
Definition CP_LONGNAME_CLUBSUIT : Z := 9827.
Definition CP_LONGNAME_QUARTERNOTE : Z := 9833.
Definition CP_LONGNAME_EIGHTHNOTE : Z := 9834.
Definition CP_LONGNAME_BEAMEDEIGHTHNOTE : Z := 9835.
Definition CP_LONGNAME_BEAMEDSIXTEENTHNOTE : Z := 9836.
Definition CP_LONGNAME_FLAT : Z := 9837.
Definition CP_LONGNAME_NATURAL : Z := 9838.
Definition CP_LONGNAME_SHARP : Z := 9839.
Definition CP_LONGNAME_URANUS : Z := 9954.
Definition CP_LONGNAME_CHECKMARK : Z := 10003.
Definition CP_LONGNAME_SIXPOINTEDSTAR : Z := 10038.
Definition CP_LONGNAME_PERPENDICULAR : Z := 10178.
Definition CP_LONGNAME_LONGLEFTARROW : Z := 10229.
Definition CP_LONGNAME_LONGRIGHTARROW : Z := 10230.
Definition CP_LONGNAME_LONGLEFTRIGHTARROW : Z := 10231.
Definition CP_LONGNAME_DOUBLELONGLEFTARROW : Z := 10232.
Definition CP_LONGNAME_DOUBLELONGRIGHTARROW : Z := 10233.
Definition CP_LONGNAME_DOUBLELONGLEFTRIGHTARROW : Z := 10234.
Definition CP_LONGNAME_UPARROWBAR : Z := 10514.
Definition CP_LONGNAME_DOWNARROWBAR : Z := 10515.
Definition CP_LONGNAME_LEFTRIGHTVECTOR : Z := 10574.
Definition CP_LONGNAME_RIGHTUPDOWNVECTOR : Z := 10575.
Definition CP_LONGNAME_DOWNLEFTRIGHTVECTOR : Z := 10576.
Definition CP_LONGNAME_LEFTUPDOWNVECTOR : Z := 10577.
Definition CP_LONGNAME_LEFTVECTORBAR : Z := 10578.
Definition CP_LONGNAME_RIGHTVECTORBAR : Z := 10579.
Definition CP_LONGNAME_RIGHTUPVECTORBAR : Z := 10580.
Definition CP_LONGNAME_RIGHTDOWNVECTORBAR : Z := 10581.
Definition CP_LONGNAME_DOWNLEFTVECTORBAR : Z := 10582.
Definition CP_LONGNAME_DOWNRIGHTVECTORBAR : Z := 10583.
Definition CP_LONGNAME_LEFTUPVECTORBAR : Z := 10584.
Definition CP_LONGNAME_LEFTDOWNVECTORBAR : Z := 10585.
Definition CP_LONGNAME_LEFTTEEVECTOR : Z := 10586.
Definition CP_LONGNAME_RIGHTTEEVECTOR : Z := 10587.
Definition CP_LONGNAME_RIGHTUPTEEVECTOR : Z := 10588.
Definition CP_LONGNAME_RIGHTDOWNTEEVECTOR : Z := 10589.
Definition CP_LONGNAME_DOWNLEFTTEEVECTOR : Z := 10590.
Definition CP_LONGNAME_DOWNRIGHTTEEVECTOR : Z := 10591.
Definition CP_LONGNAME_LEFTUPTEEVECTOR : Z := 10592.
Definition CP_LONGNAME_LEFTDOWNTEEVECTOR : Z := 10593.
Definition CP_LONGNAME_UPEQUILIBRIUM : Z := 10606.
Definition CP_LONGNAME_REVERSEUPEQUILIBRIUM : Z := 10607.
Definition CP_LONGNAME_ROUNDIMPLIES : Z := 10608.
Definition CP_LONGNAME_LEFTTRIANGLEBAR : Z := 10703.
Definition CP_LONGNAME_RIGHTTRIANGLEBAR : Z := 10704.
Definition CP_LONGNAME_EQUIVALENT : Z := 10726.
Definition CP_LONGNAME_LESSSLANTEQUAL : Z := 10877.
Definition CP_LONGNAME_GREATERSLANTEQUAL : Z := 10878.
Definition CP_LONGNAME_NESTEDLESSLESS : Z := 10913.
Definition CP_LONGNAME_NESTEDGREATERGREATER : Z := 10914.
Definition CP_LONGNAME_PRECEDESEQUAL : Z := 10927.
Definition CP_LONGNAME_SUCCEEDSEQUAL : Z := 10928.
Definition CP_LONGNAME_DOUBLELEFTTEE : Z := 10980.
Definition CP_LONGNAME_COMPATIBILITYKANJISPACE : Z := 12288.
Definition CP_LONGNAME_LEFTDOUBLEBRACKET : Z := 12314.
Definition CP_LONGNAME_RIGHTDOUBLEBRACKET : Z := 12315.
Definition CP_LONGNAME_LEFTASSOCIATION : Z := 61715.
Definition CP_LONGNAME_RIGHTASSOCIATION : Z := 61716.
Definition CP_LONGNAME_SHAH : Z := 61725.
Definition CP_LONGNAME_WOLFRAMLANGUAGELOGO : Z := 61726.
Definition CP_LONGNAME_WOLFRAMLANGUAGELOGOCIRCLE : Z := 61727.
Definition CP_LONGNAME_TWOWAYRULE : Z := 61728.
Definition CP_LONGNAME_FREEFORMPROMPT : Z := 62289.
Definition CP_LONGNAME_WOLFRAMALPHAPROMPT : Z := 62290.
Definition CP_LONGNAME_INVISIBLESPACE : Z := 62304.
Definition CP_LONGNAME_PIECEWISE : Z := 62305.
Definition CP_LONGNAME_NEGATIVEVERYTHINSPACE : Z := 62336.
Definition CP_LONGNAME_NEGATIVETHINSPACE : Z := 62338.
Definition CP_LONGNAME_NEGATIVEMEDIUMSPACE : Z := 62339.
Definition CP_LONGNAME_NEGATIVETHICKSPACE : Z := 62340.
Definition CP_LONGNAME_IMPLICITPLUS : Z := 62366.
Definition CP_LONGNAME_NULL : Z := 62368.
Definition CP_LONGNAME_COMPATIBILITYNOBREAK : Z := 62370.
Definition CP_LONGNAME_INDENTINGNEWLINE : Z := 62371.
Definition CP_LONGNAME_AUTOPLACEHOLDER : Z := 62372.
Definition CP_LONGNAME_AUTOLEFTMATCH : Z := 62376.
Definition CP_LONGNAME_AUTORIGHTMATCH : Z := 62377.
Definition CP_LONGNAME_AUTOSPACE : Z := 62381.
Definition CP_LONGNAME_AUTOOPERAND : Z := 62382.
Definition CP_LONGNAME_SYSTEMSMODELDELAY : Z := 62383.
Definition CP_LONGNAME_CONTINUATION : Z := 62385.
Definition CP_LONGNAME_ROUNDSPACEINDICATOR : Z := 62386.
Definition CP_LONGNAME_INVISIBLEPREFIXSCRIPTBASE : Z := 62387.
Definition CP_LONGNAME_INVISIBLEPOSTFIXSCRIPTBASE : Z := 62388.
Definition CP_LONGNAME_ENTITYSTART : Z := 62392.
Definition CP_LONGNAME_ENTITYEND : Z := 62393.
Definition CP_LONGNAME_SPANFROMLEFT : Z := 62394.
Definition CP_LONGNAME_SPANFROMABOVE : Z := 62395.
Definition CP_LONGNAME_SPANFROMBOTH : Z := 62396.
Definition CP_LONGNAME_PAGEBREAKABOVE : Z := 62397.
Definition CP_LONGNAME_PAGEBREAKBELOW : Z := 62398.
Definition CP_LONGNAME_DISCRETIONARYPAGEBREAKABOVE : Z := 62399.
Definition CP_LONGNAME_DISCRETIONARYPAGEBREAKBELOW : Z := 62406.
Definition CP_LONGNAME_TRANSPOSE : Z := 62407.
Definition CP_LONGNAME_CONJUGATE : Z := 62408.
Definition CP_LONGNAME_CONJUGATETRANSPOSE : Z := 62409.
Definition CP_LONGNAME_STEPPERRIGHT : Z := 62410.
Definition CP_LONGNAME_STEPPERLEFT : Z := 62411.
Definition CP_LONGNAME_STEPPERUP : Z := 62412.
Definition CP_LONGNAME_STEPPERDOWN : Z := 62413.
Definition CP_LONGNAME_HERMITIANCONJUGATE : Z := 62414.
Definition CP_LONGNAME_VERTICALBAR : Z := 62416.
Definition CP_LONGNAME_NOTVERTICALBAR : Z := 62417.
Definition CP_LONGNAME_DISTRIBUTED : Z := 62418.
Definition CP_LONGNAME_CONDITIONED : Z := 62419.
Definition CP_LONGNAME_UNDIRECTEDEDGE : Z := 62420.
Definition CP_LONGNAME_DIRECTEDEDGE : Z := 62421.
Definition CP_LONGNAME_CONTINUEDFRACTIONK : Z := 62425.
Definition CP_LONGNAME_TENSORPRODUCT : Z := 62426.
Definition CP_LONGNAME_TENSORWEDGE : Z := 62427.
Definition CP_LONGNAME_PROBABILITYPR : Z := 62428.
Definition CP_LONGNAME_EXPECTATIONE : Z := 62429.
Definition CP_LONGNAME_PERMUTATIONPRODUCT : Z := 62430.
Definition CP_LONGNAME_EARTH : Z := 62431.
Definition CP_LONGNAME_NOTEQUALTILDE : Z := 62464.
Definition CP_LONGNAME_NOTHUMPEQUAL : Z := 62465.
Definition CP_LONGNAME_NOTHUMPDOWNHUMP : Z := 62466.
Definition CP_LONGNAME_NOTLEFTTRIANGLEBAR : Z := 62482.
Definition CP_LONGNAME_NOTRIGHTTRIANGLEBAR : Z := 62483.
Definition CP_LONGNAME_NOTLESSLESS : Z := 62498.
Definition CP_LONGNAME_NOTNESTEDLESSLESS : Z := 62499.
Definition CP_LONGNAME_NOTLESSSLANTEQUAL : Z := 62500.
Definition CP_LONGNAME_NOTGREATERGREATER : Z := 62503.
Definition CP_LONGNAME_NOTNESTEDGREATERGREATER : Z := 62504.
Definition CP_LONGNAME_NOTGREATERSLANTEQUAL : Z := 62505.
Definition CP_LONGNAME_NOTPRECEDESEQUAL : Z := 62507.
Definition CP_LONGNAME_NOTSUCCEEDSEQUAL : Z := 62509.
Definition CP_LONGNAME_NOTSQUARESUBSET : Z := 62510.
Definition CP_LONGNAME_NOTSQUARESUPERSET : Z := 62511.
Definition CP_LONGNAME_EQUAL : Z := 62513.
Definition CP_LONGNAME_VERTICALSEPARATOR : Z := 62514.
Definition CP_LONGNAME_VECTORGREATER : Z := 62516.
Definition CP_LONGNAME_VECTORGREATEREQUAL : Z := 62517.
Definition CP_LONGNAME_VECTORLESS : Z := 62518.
Definition CP_LONGNAME_VECTORLESSEQUAL : Z := 62519.
Definition CP_LONGNAME_LIMIT : Z := 62520.
Definition CP_LONGNAME_MAXLIMIT : Z := 62521.
Definition CP_LONGNAME_MINLIMIT : Z := 62522.
Definition CP_LONGNAME_CROSS : Z := 62624.
Definition CP_LONGNAME_FUNCTION : Z := 62625.
Definition CP_LONGNAME_XNOR : Z := 62626.
Definition CP_LONGNAME_DISCRETESHIFT : Z := 62627.
Definition CP_LONGNAME_DIFFERENCEDELTA : Z := 62628.
Definition CP_LONGNAME_DISCRETERATIO : Z := 62629.
Definition CP_LONGNAME_INLINEPART : Z := 62750.
Definition CP_LONGNAME_RULEDELAYED : Z := 62751.
Definition CP_LONGNAME_SQUARE : Z := 62752.
Definition CP_LONGNAME_RULE : Z := 62754.
Definition CP_LONGNAME_IMPLIES : Z := 62755.
Definition CP_LONGNAME_SHORTRIGHTARROW : Z := 62757.
Definition CP_LONGNAME_SHORTLEFTARROW : Z := 62758.
Definition CP_LONGNAME_SELECTIONPLACEHOLDER : Z := 62759.
Definition CP_LONGNAME_PLACEHOLDER : Z := 62760.
Definition CP_LONGNAME_SHORTUPARROW : Z := 62762.
Definition CP_LONGNAME_SHORTDOWNARROW : Z := 62763.
Definition CP_LONGNAME_APPLICATION : Z := 62768.
Definition CP_LONGNAME_LEFTBRACKETINGBAR : Z := 62979.
Definition CP_LONGNAME_RIGHTBRACKETINGBAR : Z := 62980.
Definition CP_LONGNAME_LEFTDOUBLEBRACKETINGBAR : Z := 62981.
Definition CP_LONGNAME_RIGHTDOUBLEBRACKETINGBAR : Z := 62982.
Definition CP_LONGNAME_SCRIPTA : Z := 63154.
Definition CP_LONGNAME_SCRIPTB : Z := 63155.
Definition CP_LONGNAME_SCRIPTC : Z := 63156.
Definition CP_LONGNAME_SCRIPTD : Z := 63157.
Definition CP_LONGNAME_SCRIPTF : Z := 63159.
Definition CP_LONGNAME_SCRIPTH : Z := 63161.
Definition CP_LONGNAME_SCRIPTI : Z := 63162.
Definition CP_LONGNAME_SCRIPTJ : Z := 63163.
Definition CP_LONGNAME_SCRIPTK : Z := 63164.
Definition CP_LONGNAME_SCRIPTM : Z := 63166.
Definition CP_LONGNAME_SCRIPTN : Z := 63167.
Definition CP_LONGNAME_SCRIPTP : Z := 63169.
Definition CP_LONGNAME_SCRIPTQ : Z := 63170.
Definition CP_LONGNAME_SCRIPTR : Z := 63171.
Definition CP_LONGNAME_SCRIPTS : Z := 63172.
Definition CP_LONGNAME_SCRIPTT : Z := 63173.
Definition CP_LONGNAME_SCRIPTU : Z := 63174.
Definition CP_LONGNAME_SCRIPTV : Z := 63175.
Definition CP_LONGNAME_SCRIPTW : Z := 63176.
Definition CP_LONGNAME_SCRIPTX : Z := 63177.
Definition CP_LONGNAME_SCRIPTY : Z := 63178.
Definition CP_LONGNAME_SCRIPTZ : Z := 63179.
Definition CP_LONGNAME_GOTHICA : Z := 63180.
Definition CP_LONGNAME_GOTHICB : Z := 63181.
Definition CP_LONGNAME_GOTHICC : Z := 63182.
Definition CP_LONGNAME_GOTHICD : Z := 63183.
Definition CP_LONGNAME_GOTHICE : Z := 63184.
Definition CP_LONGNAME_GOTHICF : Z := 63185.
Definition CP_LONGNAME_GOTHICG : Z := 63186.
Definition CP_LONGNAME_GOTHICH : Z := 63187.
Definition CP_LONGNAME_GOTHICI : Z := 63188.
Definition CP_LONGNAME_GOTHICJ : Z := 63189.
Definition CP_LONGNAME_GOTHICK : Z := 63190.
Definition CP_LONGNAME_GOTHICL : Z := 63191.
Definition CP_LONGNAME_GOTHICM : Z := 63192.
Definition CP_LONGNAME_GOTHICN : Z := 63193.
Definition CP_LONGNAME_GOTHICO : Z := 63194.
Definition CP_LONGNAME_GOTHICP : Z := 63195.
Definition CP_LONGNAME_GOTHICQ : Z := 63196.
Definition CP_LONGNAME_GOTHICR : Z := 63197.
Definition CP_LONGNAME_GOTHICS : Z := 63198.
Definition CP_LONGNAME_GOTHICT : Z := 63199.
Definition CP_LONGNAME_GOTHICU : Z := 63200.
Definition CP_LONGNAME_GOTHICV : Z := 63201.
Definition CP_LONGNAME_GOTHICW : Z := 63202.
Definition CP_LONGNAME_GOTHICX : Z := 63203.
Definition CP_LONGNAME_GOTHICY : Z := 63204.
Definition CP_LONGNAME_GOTHICZ : Z := 63205.
Definition CP_LONGNAME_DOUBLESTRUCKA : Z := 63206.
Definition CP_LONGNAME_DOUBLESTRUCKB : Z := 63207.
Definition CP_LONGNAME_DOUBLESTRUCKC : Z := 63208.
Definition CP_LONGNAME_DOUBLESTRUCKD : Z := 63209.
Definition CP_LONGNAME_DOUBLESTRUCKE : Z := 63210.
Definition CP_LONGNAME_DOUBLESTRUCKF : Z := 63211.
Definition CP_LONGNAME_DOUBLESTRUCKG : Z := 63212.
Definition CP_LONGNAME_DOUBLESTRUCKH : Z := 63213.
Definition CP_LONGNAME_DOUBLESTRUCKI : Z := 63214.
Definition CP_LONGNAME_DOUBLESTRUCKJ : Z := 63215.
Definition CP_LONGNAME_DOUBLESTRUCKK : Z := 63216.
Definition CP_LONGNAME_DOUBLESTRUCKL : Z := 63217.
Definition CP_LONGNAME_DOUBLESTRUCKM : Z := 63218.
Definition CP_LONGNAME_DOUBLESTRUCKN : Z := 63219.
Definition CP_LONGNAME_DOUBLESTRUCKO : Z := 63220.
Definition CP_LONGNAME_DOUBLESTRUCKP : Z := 63221.
Definition CP_LONGNAME_DOUBLESTRUCKQ : Z := 63222.
Definition CP_LONGNAME_DOUBLESTRUCKR : Z := 63223.
Definition CP_LONGNAME_DOUBLESTRUCKS : Z := 63224.
Definition CP_LONGNAME_DOUBLESTRUCKT : Z := 63225.
Definition CP_LONGNAME_DOUBLESTRUCKU : Z := 63226.
Definition CP_LONGNAME_DOUBLESTRUCKV : Z := 63227.
Definition CP_LONGNAME_DOUBLESTRUCKW : Z := 63228.
Definition CP_LONGNAME_DOUBLESTRUCKX : Z := 63229.
Definition CP_LONGNAME_DOUBLESTRUCKY : Z := 63230.
Definition CP_LONGNAME_DOUBLESTRUCKZ : Z := 63231.
Definition CP_LONGNAME_DOTLESSJ : Z := 63232.
Definition CP_LONGNAME_WOLF : Z := 63264.
Definition CP_LONGNAME_FREAKEDSMILEY : Z := 63265.
Definition CP_LONGNAME_NEUTRALSMILEY : Z := 63266.
Definition CP_LONGNAME_LIGHTBULB : Z := 63267.
Definition CP_LONGNAME_NUMBERSIGN : Z := 63268.
Definition CP_LONGNAME_WARNINGSIGN : Z := 63269.
Definition CP_LONGNAME_VILLA : Z := 63271.
Definition CP_LONGNAME_AKUZ : Z := 63272.
Definition CP_LONGNAME_ANDY : Z := 63273.
Definition CP_LONGNAME_SPOOKY : Z := 63274.
Definition CP_LONGNAME_SCRIPTDOTLESSI : Z := 63280.
Definition CP_LONGNAME_SCRIPTDOTLESSJ : Z := 63281.
Definition CP_LONGNAME_DOUBLEDPI : Z := 63305.
Definition CP_LONGNAME_DOUBLEDGAMMA : Z := 63306.
Definition CP_LONGNAME_CAPITALDIFFERENTIALD : Z := 63307.
Definition CP_LONGNAME_DIFFERENTIALD : Z := 63308.
Definition CP_LONGNAME_EXPONENTIALE : Z := 63309.
Definition CP_LONGNAME_IMAGINARYI : Z := 63310.
Definition CP_LONGNAME_IMAGINARYJ : Z := 63311.
Definition CP_LONGNAME_FILLEDSMALLCIRCLE : Z := 63312.
Definition CP_LONGNAME_DOTTEDSQUARE : Z := 63313.
Definition CP_LONGNAME_GRAYSQUARE : Z := 63314.
Definition CP_LONGNAME_GRAYCIRCLE : Z := 63315.
Definition CP_LONGNAME_LETTERSPACE : Z := 63316.
Definition CP_LONGNAME_DOWNBREVE : Z := 63317.
Definition CP_LONGNAME_KERNELICON : Z := 63318.
Definition CP_LONGNAME_MATHEMATICAICON : Z := 63319.
Definition CP_LONGNAME_TRIPLEDOT : Z := 63320.
Definition CP_LONGNAME_SYSTEMENTERKEY : Z := 63327.
Definition CP_LONGNAME_ALIGNMENTMARKER : Z := 63328.
Definition CP_LONGNAME_LEFTSKELETON : Z := 63329.
Definition CP_LONGNAME_RIGHTSKELETON : Z := 63330.
Definition CP_LONGNAME_CONTROLKEY : Z := 63331.
Definition CP_LONGNAME_ALIASDELIMITER : Z := 63332.
Definition CP_LONGNAME_INVISIBLECOMMA : Z := 63333.
Definition CP_LONGNAME_RETURNKEY : Z := 63334.
Definition CP_LONGNAME_ERRORINDICATOR : Z := 63335.
Definition CP_LONGNAME_ALIASINDICATOR : Z := 63336.
Definition CP_LONGNAME_ESCAPEKEY : Z := 63337.
Definition CP_LONGNAME_COMMANDKEY : Z := 63338.
Definition CP_LONGNAME_LEFTMODIFIED : Z := 63339.
Definition CP_LONGNAME_RIGHTMODIFIED : Z := 63340.
Definition CP_LONGNAME_INVISIBLEAPPLICATION : Z := 63341.
Definition CP_LONGNAME_DISCRETIONARYLINESEPARATOR : Z := 63342.
Definition CP_LONGNAME_DISCRETIONARYPARAGRAPHSEPARATOR : Z := 63343.
Definition CP_LONGNAME_SCRIPTCAPITALA : Z := 63344.
Definition CP_LONGNAME_SCRIPTCAPITALC : Z := 63346.
Definition CP_LONGNAME_SCRIPTCAPITALD : Z := 63347.
Definition CP_LONGNAME_SCRIPTCAPITALG : Z := 63350.
Definition CP_LONGNAME_SCRIPTCAPITALJ : Z := 63353.
Definition CP_LONGNAME_SCRIPTCAPITALK : Z := 63354.
Definition CP_LONGNAME_SCRIPTCAPITALN : Z := 63357.
Definition CP_LONGNAME_SCRIPTCAPITALO : Z := 63358.
Definition CP_LONGNAME_SCRIPTCAPITALP : Z := 63359.
Definition CP_LONGNAME_SCRIPTCAPITALQ : Z := 63360.
Definition CP_LONGNAME_SCRIPTCAPITALS : Z := 63362.
Definition CP_LONGNAME_SCRIPTCAPITALT : Z := 63363.
Definition CP_LONGNAME_SCRIPTCAPITALU : Z := 63364.
Definition CP_LONGNAME_SCRIPTCAPITALV : Z := 63365.
Definition CP_LONGNAME_SCRIPTCAPITALW : Z := 63366.
Definition CP_LONGNAME_SCRIPTCAPITALX : Z := 63367.
Definition CP_LONGNAME_SCRIPTCAPITALY : Z := 63368.
Definition CP_LONGNAME_SCRIPTCAPITALZ : Z := 63369.
Definition CP_LONGNAME_GOTHICCAPITALA : Z := 63370.
Definition CP_LONGNAME_GOTHICCAPITALB : Z := 63371.
Definition CP_LONGNAME_GOTHICCAPITALD : Z := 63373.
Definition CP_LONGNAME_GOTHICCAPITALE : Z := 63374.
Definition CP_LONGNAME_GOTHICCAPITALF : Z := 63375.
Definition CP_LONGNAME_GOTHICCAPITALG : Z := 63376.
Definition CP_LONGNAME_GOTHICCAPITALJ : Z := 63379.
Definition CP_LONGNAME_GOTHICCAPITALK : Z := 63380.
Definition CP_LONGNAME_GOTHICCAPITALL : Z := 63381.
Definition CP_LONGNAME_GOTHICCAPITALM : Z := 63382.
Definition CP_LONGNAME_GOTHICCAPITALN : Z := 63383.
Definition CP_LONGNAME_GOTHICCAPITALO : Z := 63384.
Definition CP_LONGNAME_GOTHICCAPITALP : Z := 63385.
Definition CP_LONGNAME_GOTHICCAPITALQ : Z := 63386.
Definition CP_LONGNAME_GOTHICCAPITALS : Z := 63388.
Definition CP_LONGNAME_GOTHICCAPITALT : Z := 63389.
Definition CP_LONGNAME_GOTHICCAPITALU : Z := 63390.
Definition CP_LONGNAME_GOTHICCAPITALV : Z := 63391.
Definition CP_LONGNAME_GOTHICCAPITALW : Z := 63392.
Definition CP_LONGNAME_GOTHICCAPITALX : Z := 63393.
Definition CP_LONGNAME_GOTHICCAPITALY : Z := 63394.
Definition CP_LONGNAME_DOUBLESTRUCKCAPITALA : Z := 63396.
Definition CP_LONGNAME_DOUBLESTRUCKCAPITALB : Z := 63397.
Definition CP_LONGNAME_DOUBLESTRUCKCAPITALC : Z := 63398.
Definition CP_LONGNAME_DOUBLESTRUCKCAPITALD : Z := 63399.
Definition CP_LONGNAME_DOUBLESTRUCKCAPITALE : Z := 63400.
Definition CP_LONGNAME_DOUBLESTRUCKCAPITALF : Z := 63401.
Definition CP_LONGNAME_DOUBLESTRUCKCAPITALG : Z := 63402.
Definition CP_LONGNAME_DOUBLESTRUCKCAPITALH : Z := 63403.
Definition CP_LONGNAME_DOUBLESTRUCKCAPITALI : Z := 63404.
Definition CP_LONGNAME_DOUBLESTRUCKCAPITALJ : Z := 63405.
Definition CP_LONGNAME_DOUBLESTRUCKCAPITALK : Z := 63406.
Definition CP_LONGNAME_DOUBLESTRUCKCAPITALL : Z := 63407.
Definition CP_LONGNAME_DOUBLESTRUCKCAPITALM : Z := 63408.
Definition CP_LONGNAME_DOUBLESTRUCKCAPITALN : Z := 63409.
Definition CP_LONGNAME_DOUBLESTRUCKCAPITALO : Z := 63410.
Definition CP_LONGNAME_DOUBLESTRUCKCAPITALP : Z := 63411.
Definition CP_LONGNAME_DOUBLESTRUCKCAPITALQ : Z := 63412.
Definition CP_LONGNAME_DOUBLESTRUCKCAPITALR : Z := 63413.
Definition CP_LONGNAME_DOUBLESTRUCKCAPITALS : Z := 63414.
Definition CP_LONGNAME_DOUBLESTRUCKCAPITALT : Z := 63415.
Definition CP_LONGNAME_DOUBLESTRUCKCAPITALU : Z := 63416.
Definition CP_LONGNAME_DOUBLESTRUCKCAPITALV : Z := 63417.
Definition CP_LONGNAME_DOUBLESTRUCKCAPITALW : Z := 63418.
Definition CP_LONGNAME_DOUBLESTRUCKCAPITALX : Z := 63419.
Definition CP_LONGNAME_DOUBLESTRUCKCAPITALY : Z := 63420.
Definition CP_LONGNAME_DOUBLESTRUCKCAPITALZ : Z := 63421.
Definition CP_LONGNAME_TABKEY : Z := 63422.
Definition CP_LONGNAME_SPACEKEY : Z := 63423.
Definition CP_LONGNAME_DELETEKEY : Z := 63440.
Definition CP_LONGNAME_ALTKEY : Z := 63441.
Definition CP_LONGNAME_OPTIONKEY : Z := 63442.
Definition CP_LONGNAME_KEYBAR : Z := 63443.
Definition CP_LONGNAME_ENTERKEY : Z := 63444.
Definition CP_LONGNAME_SHIFTKEY : Z := 63445.
Definition CP_LONGNAME_MOD1KEY : Z := 63446.
Definition CP_LONGNAME_MOD2KEY : Z := 63447.
Definition CP_LONGNAME_LONGEQUAL : Z := 63449.
Definition CP_LONGNAME_CONSTANTC : Z := 63450.
Definition CP_LONGNAME_DOUBLESTRUCKZERO : Z := 63451.
Definition CP_LONGNAME_DOUBLESTRUCKONE : Z := 63452.
Definition CP_LONGNAME_DOUBLESTRUCKTWO : Z := 63453.
Definition CP_LONGNAME_DOUBLESTRUCKTHREE : Z := 63454.
Definition CP_LONGNAME_DOUBLESTRUCKFOUR : Z := 63455.
Definition CP_LONGNAME_DOUBLESTRUCKFIVE : Z := 63456.
Definition CP_LONGNAME_DOUBLESTRUCKSIX : Z := 63457.
Definition CP_LONGNAME_DOUBLESTRUCKSEVEN : Z := 63458.
Definition CP_LONGNAME_DOUBLESTRUCKEIGHT : Z := 63459.
Definition CP_LONGNAME_DOUBLESTRUCKNINE : Z := 63460.
Definition CP_LONGNAME_GOTHICZERO : Z := 63461.
Definition CP_LONGNAME_GOTHICONE : Z := 63462.
Definition CP_LONGNAME_GOTHICTWO : Z := 63463.
Definition CP_LONGNAME_GOTHICTHREE : Z := 63464.
Definition CP_LONGNAME_GOTHICFOUR : Z := 63465.
Definition CP_LONGNAME_GOTHICFIVE : Z := 63466.
Definition CP_LONGNAME_GOTHICSIX : Z := 63467.
Definition CP_LONGNAME_GOTHICSEVEN : Z := 63468.
Definition CP_LONGNAME_GOTHICEIGHT : Z := 63469.
Definition CP_LONGNAME_GOTHICNINE : Z := 63471.
Definition CP_LONGNAME_SCRIPTZERO : Z := 63472.
Definition CP_LONGNAME_SCRIPTONE : Z := 63473.
Definition CP_LONGNAME_SCRIPTTWO : Z := 63474.
Definition CP_LONGNAME_SCRIPTTHREE : Z := 63475.
Definition CP_LONGNAME_SCRIPTFOUR : Z := 63476.
Definition CP_LONGNAME_SCRIPTFIVE : Z := 63477.
Definition CP_LONGNAME_SCRIPTSIX : Z := 63478.
Definition CP_LONGNAME_SCRIPTSEVEN : Z := 63479.
Definition CP_LONGNAME_SCRIPTEIGHT : Z := 63480.
Definition CP_LONGNAME_SCRIPTNINE : Z := 63481.
Definition CP_LONGNAME_FIRSTPAGE : Z := 63482.
Definition CP_LONGNAME_LASTPAGE : Z := 63483.
Definition CP_LONGNAME_NUMBERCOMMA : Z := 63484.
Definition CP_LONGNAME_FORMALA : Z := 63488.
Definition CP_LONGNAME_FORMALB : Z := 63489.
Definition CP_LONGNAME_FORMALC : Z := 63490.
Definition CP_LONGNAME_FORMALD : Z := 63491.
Definition CP_LONGNAME_FORMALE : Z := 63492.
Definition CP_LONGNAME_FORMALF : Z := 63493.
Definition CP_LONGNAME_FORMALG : Z := 63494.
Definition CP_LONGNAME_FORMALH : Z := 63495.
Definition CP_LONGNAME_FORMALI : Z := 63496.
Definition CP_LONGNAME_FORMALJ : Z := 63497.
Definition CP_LONGNAME_FORMALK : Z := 63498.
Definition CP_LONGNAME_FORMALL : Z := 63499.
Definition CP_LONGNAME_FORMALM : Z := 63500.
Definition CP_LONGNAME_FORMALN : Z := 63501.
Definition CP_LONGNAME_FORMALO : Z := 63502.
Definition CP_LONGNAME_FORMALP : Z := 63503.
Definition CP_LONGNAME_FORMALQ : Z := 63504.
Definition CP_LONGNAME_FORMALR : Z := 63505.
Definition CP_LONGNAME_FORMALS : Z := 63506.
Definition CP_LONGNAME_FORMALT : Z := 63507.
Definition CP_LONGNAME_FORMALU : Z := 63508.
Definition CP_LONGNAME_FORMALV : Z := 63509.
Definition CP_LONGNAME_FORMALW : Z := 63510.
Definition CP_LONGNAME_FORMALX : Z := 63511.
Definition CP_LONGNAME_FORMALY : Z := 63512.
Definition CP_LONGNAME_FORMALZ : Z := 63513.
Definition CP_LONGNAME_FORMALCAPITALA : Z := 63514.
Definition CP_LONGNAME_FORMALCAPITALB : Z := 63515.
Definition CP_LONGNAME_FORMALCAPITALC : Z := 63516.
Definition CP_LONGNAME_FORMALCAPITALD : Z := 63517.
Definition CP_LONGNAME_FORMALCAPITALE : Z := 63518.
Definition CP_LONGNAME_FORMALCAPITALF : Z := 63519.
Definition CP_LONGNAME_FORMALCAPITALG : Z := 63520.
Definition CP_LONGNAME_FORMALCAPITALH : Z := 63521.
Definition CP_LONGNAME_FORMALCAPITALI : Z := 63522.
Definition CP_LONGNAME_FORMALCAPITALJ : Z := 63523.
Definition CP_LONGNAME_FORMALCAPITALK : Z := 63524.
Definition CP_LONGNAME_FORMALCAPITALL : Z := 63525.
Definition CP_LONGNAME_FORMALCAPITALM : Z := 63526.
Definition CP_LONGNAME_FORMALCAPITALN : Z := 63527.
Definition CP_LONGNAME_FORMALCAPITALO : Z := 63528.
Definition CP_LONGNAME_FORMALCAPITALP : Z := 63529.
Definition CP_LONGNAME_FORMALCAPITALQ : Z := 63530.
Definition CP_LONGNAME_FORMALCAPITALR : Z := 63531.
Definition CP_LONGNAME_FORMALCAPITALS : Z := 63532.
Definition CP_LONGNAME_FORMALCAPITALT : Z := 63533.
Definition CP_LONGNAME_FORMALCAPITALU : Z := 63534.
Definition CP_LONGNAME_FORMALCAPITALV : Z := 63535.
Definition CP_LONGNAME_FORMALCAPITALW : Z := 63536.
Definition CP_LONGNAME_FORMALCAPITALX : Z := 63537.
Definition CP_LONGNAME_FORMALCAPITALY : Z := 63538.
Definition CP_LONGNAME_FORMALCAPITALZ : Z := 63539.
Definition CP_LONGNAME_FORMALCAPITALALPHA : Z := 63540.
Definition CP_LONGNAME_FORMALCAPITALBETA : Z := 63541.
Definition CP_LONGNAME_FORMALCAPITALGAMMA : Z := 63542.
Definition CP_LONGNAME_FORMALCAPITALDELTA : Z := 63543.
Definition CP_LONGNAME_FORMALCAPITALEPSILON : Z := 63544.
Definition CP_LONGNAME_FORMALCAPITALZETA : Z := 63545.
Definition CP_LONGNAME_FORMALCAPITALETA : Z := 63546.
Definition CP_LONGNAME_FORMALCAPITALTHETA : Z := 63547.
Definition CP_LONGNAME_FORMALCAPITALIOTA : Z := 63548.
Definition CP_LONGNAME_FORMALCAPITALKAPPA : Z := 63549.
Definition CP_LONGNAME_FORMALCAPITALLAMBDA : Z := 63550.
Definition CP_LONGNAME_FORMALCAPITALMU : Z := 63551.
Definition CP_LONGNAME_FORMALCAPITALNU : Z := 63552.
Definition CP_LONGNAME_FORMALCAPITALXI : Z := 63553.
Definition CP_LONGNAME_FORMALCAPITALOMICRON : Z := 63554.
Definition CP_LONGNAME_FORMALCAPITALPI : Z := 63555.
Definition CP_LONGNAME_FORMALCAPITALRHO : Z := 63556.
Definition CP_LONGNAME_FORMALCAPITALSIGMA : Z := 63558.
Definition CP_LONGNAME_FORMALCAPITALTAU : Z := 63559.
Definition CP_LONGNAME_FORMALCAPITALUPSILON : Z := 63560.
Definition CP_LONGNAME_FORMALCAPITALPHI : Z := 63561.
Definition CP_LONGNAME_FORMALCAPITALCHI : Z := 63562.
Definition CP_LONGNAME_FORMALCAPITALPSI : Z := 63563.
Definition CP_LONGNAME_FORMALCAPITALOMEGA : Z := 63564.
Definition CP_LONGNAME_FORMALALPHA : Z := 63572.
Definition CP_LONGNAME_FORMALBETA : Z := 63573.
Definition CP_LONGNAME_FORMALGAMMA : Z := 63574.
Definition CP_LONGNAME_FORMALDELTA : Z := 63575.
Definition CP_LONGNAME_FORMALCURLYEPSILON : Z := 63576.
Definition CP_LONGNAME_FORMALZETA : Z := 63577.
Definition CP_LONGNAME_FORMALETA : Z := 63578.
Definition CP_LONGNAME_FORMALTHETA : Z := 63579.
Definition CP_LONGNAME_FORMALIOTA : Z := 63580.
Definition CP_LONGNAME_FORMALKAPPA : Z := 63581.
Definition CP_LONGNAME_FORMALLAMBDA : Z := 63582.
Definition CP_LONGNAME_FORMALMU : Z := 63583.
Definition CP_LONGNAME_FORMALNU : Z := 63584.
Definition CP_LONGNAME_FORMALXI : Z := 63585.
Definition CP_LONGNAME_FORMALOMICRON : Z := 63586.
Definition CP_LONGNAME_FORMALPI : Z := 63587.
Definition CP_LONGNAME_FORMALRHO : Z := 63588.
Definition CP_LONGNAME_FORMALFINALSIGMA : Z := 63589.
Definition CP_LONGNAME_FORMALSIGMA : Z := 63590.
Definition CP_LONGNAME_FORMALTAU : Z := 63591.
Definition CP_LONGNAME_FORMALUPSILON : Z := 63592.
Definition CP_LONGNAME_FORMALCURLYPHI : Z := 63593.
Definition CP_LONGNAME_FORMALCHI : Z := 63594.
Definition CP_LONGNAME_FORMALPSI : Z := 63595.
Definition CP_LONGNAME_FORMALOMEGA : Z := 63596.
Definition CP_LONGNAME_FORMALCURLYTHETA : Z := 63604.
Definition CP_LONGNAME_FORMALCURLYCAPITALUPSILON : Z := 63605.
Definition CP_LONGNAME_FORMALPHI : Z := 63608.
Definition CP_LONGNAME_FORMALCURLYPI : Z := 63609.
Definition CP_LONGNAME_FORMALCAPITALSTIGMA : Z := 63613.
Definition CP_LONGNAME_FORMALSTIGMA : Z := 63614.
Definition CP_LONGNAME_FORMALCAPITALDIGAMMA : Z := 63615.
Definition CP_LONGNAME_FORMALDIGAMMA : Z := 63616.
Definition CP_LONGNAME_FORMALCAPITALKOPPA : Z := 63617.
Definition CP_LONGNAME_FORMALKOPPA : Z := 63618.
Definition CP_LONGNAME_FORMALCAPITALSAMPI : Z := 63619.
Definition CP_LONGNAME_FORMALSAMPI : Z := 63620.
Definition CP_LONGNAME_FORMALCURLYKAPPA : Z := 63621.
Definition CP_LONGNAME_FORMALCURLYRHO : Z := 63622.
Definition CP_LONGNAME_FORMALEPSILON : Z := 63626.
Definition CP_LONGNAME_FILIGATURE : Z := 64257.
Definition CP_LONGNAME_FLLIGATURE : Z := 64258.
Definition CP_LONGNAME_OVERPARENTHESIS : Z := 65077.
Definition CP_LONGNAME_UNDERPARENTHESIS : Z := 65078.
Definition CP_LONGNAME_OVERBRACE : Z := 65079.
Definition CP_LONGNAME_UNDERBRACE : Z := 65080.
Definition CP_LONGNAME_UNKNOWNGLYPH : Z := 65533.
Definition CP_LONGNAME_FORMALSCRIPTA : Z := 1024000.
Definition CP_LONGNAME_FORMALSCRIPTB : Z := 1024001.
Definition CP_LONGNAME_FORMALSCRIPTC : Z := 1024002.
Definition CP_LONGNAME_FORMALSCRIPTD : Z := 1024003.
Definition CP_LONGNAME_FORMALSCRIPTE : Z := 1024004.
Definition CP_LONGNAME_FORMALSCRIPTF : Z := 1024005.
Definition CP_LONGNAME_FORMALSCRIPTG : Z := 1024006.
Definition CP_LONGNAME_FORMALSCRIPTH : Z := 1024007.
Definition CP_LONGNAME_FORMALSCRIPTI : Z := 1024008.
Definition CP_LONGNAME_FORMALSCRIPTJ : Z := 1024009.
Definition CP_LONGNAME_FORMALSCRIPTK : Z := 1024010.
Definition CP_LONGNAME_FORMALSCRIPTL : Z := 1024011.
Definition CP_LONGNAME_FORMALSCRIPTM : Z := 1024012.
Definition CP_LONGNAME_FORMALSCRIPTN : Z := 1024013.
Definition CP_LONGNAME_FORMALSCRIPTO : Z := 1024014.
Definition CP_LONGNAME_FORMALSCRIPTP : Z := 1024015.
Definition CP_LONGNAME_FORMALSCRIPTQ : Z := 1024016.
Definition CP_LONGNAME_FORMALSCRIPTR : Z := 1024017.
Definition CP_LONGNAME_FORMALSCRIPTS : Z := 1024018.
Definition CP_LONGNAME_FORMALSCRIPTT : Z := 1024019.
Definition CP_LONGNAME_FORMALSCRIPTU : Z := 1024020.
Definition CP_LONGNAME_FORMALSCRIPTV : Z := 1024021.
Definition CP_LONGNAME_FORMALSCRIPTW : Z := 1024022.
Definition CP_LONGNAME_FORMALSCRIPTX : Z := 1024023.
Definition CP_LONGNAME_FORMALSCRIPTY : Z := 1024024.
Definition CP_LONGNAME_FORMALSCRIPTZ : Z := 1024025.
Definition CP_LONGNAME_FORMALSCRIPTCAPITALA : Z := 1024026.
Definition CP_LONGNAME_FORMALSCRIPTCAPITALB : Z := 1024027.
Definition CP_LONGNAME_FORMALSCRIPTCAPITALC : Z := 1024028.
Definition CP_LONGNAME_FORMALSCRIPTCAPITALD : Z := 1024029.
Definition CP_LONGNAME_FORMALSCRIPTCAPITALE : Z := 1024030.
Definition CP_LONGNAME_FORMALSCRIPTCAPITALF : Z := 1024031.
Definition CP_LONGNAME_FORMALSCRIPTCAPITALG : Z := 1024032.
Definition CP_LONGNAME_FORMALSCRIPTCAPITALH : Z := 1024033.
Definition CP_LONGNAME_FORMALSCRIPTCAPITALI : Z := 1024034.
Definition CP_LONGNAME_FORMALSCRIPTCAPITALJ : Z := 1024035.
Definition CP_LONGNAME_FORMALSCRIPTCAPITALK : Z := 1024036.
Definition CP_LONGNAME_FORMALSCRIPTCAPITALL : Z := 1024037.
Definition CP_LONGNAME_FORMALSCRIPTCAPITALM : Z := 1024038.
Definition CP_LONGNAME_FORMALSCRIPTCAPITALN : Z := 1024039.
Definition CP_LONGNAME_FORMALSCRIPTCAPITALO : Z := 1024040.
Definition CP_LONGNAME_FORMALSCRIPTCAPITALP : Z := 1024041.
Definition CP_LONGNAME_FORMALSCRIPTCAPITALQ : Z := 1024042.
Definition CP_LONGNAME_FORMALSCRIPTCAPITALR : Z := 1024043.
Definition CP_LONGNAME_FORMALSCRIPTCAPITALS : Z := 1024044.
Definition CP_LONGNAME_FORMALSCRIPTCAPITALT : Z := 1024045.
Definition CP_LONGNAME_FORMALSCRIPTCAPITALU : Z := 1024046.
Definition CP_LONGNAME_FORMALSCRIPTCAPITALV : Z := 1024047.
Definition CP_LONGNAME_FORMALSCRIPTCAPITALW : Z := 1024048.
Definition CP_LONGNAME_FORMALSCRIPTCAPITALX : Z := 1024049.
Definition CP_LONGNAME_FORMALSCRIPTCAPITALY : Z := 1024050.
Definition CP_LONGNAME_FORMALSCRIPTCAPITALZ : Z := 1024051.

(** LONGNAME_TO_CODEPOINT_MAP *)
Definition LONGNAME_TO_CODEPOINT : list (string * Z) := [
  ("AAcute"%string, 225); ("ABar"%string, 257); ("ACup"%string, 259);
  ("ADoubleDot"%string, 228); ("AE"%string, 230); ("AGrave"%string, 224);
  ("AHat"%string, 226); ("ARing"%string, 229); ("ATilde"%string, 227);
  ("Akuz"%string, 63272); ("Aleph"%string, 8501); ("AliasDelimiter"%string, 63332);
  ("AliasIndicator"%string, 63336); ("AlignmentMarker"%string, 63328); ("Alpha"%string, 945);
  ("AltKey"%string, 63441); ("And"%string, 8743); ("Andy"%string, 63273);
  ("Angle"%string, 8736); ("Angstrom"%string, 8491); ("Application"%string, 62768);
  ("AquariusSign"%string, 9810); ("AriesSign"%string, 9800); ("AscendingEllipsis"%string, 8944);
  ("AutoLeftMatch"%string, 62376); ("AutoOperand"%string, 62382); ("AutoPlaceholder"%string, 62372);
  ("AutoRightMatch"%string, 62377); ("AutoSpace"%string, 62381); ("Backslash"%string, 8726);
  ("BeamedEighthNote"%string, 9835); ("BeamedSixteenthNote"%string, 9836); ("Because"%string, 8757);
  ("Bet"%string, 8502); ("Beta"%string, 946); ("BlackBishop"%string, 9821);
  ("BlackKing"%string, 9818); ("BlackKnight"%string, 9822); ("BlackPawn"%string, 9823);
  ("BlackQueen"%string, 9819); ("BlackRook"%string, 9820); ("Breve"%string, 728);
  ("Bullet"%string, 8226); ("CAcute"%string, 263); ("CCedilla"%string, 231);
  ("CHacek"%string, 269); ("COMPATIBILITYKanjiSpace"%string, 12288); ("COMPATIBILITYNoBreak"%string, 62370);
  ("CancerSign"%string, 9803); ("Cap"%string, 8994); ("CapitalAAcute"%string, 193);
  ("CapitalABar"%string, 256); ("CapitalACup"%string, 258); ("CapitalADoubleDot"%string, 196);
  ("CapitalAE"%string, 198); ("CapitalAGrave"%string, 192); ("CapitalAHat"%string, 194);
  ("CapitalARing"%string, 197); ("CapitalATilde"%string, 195); ("CapitalAlpha"%string, 913);
  ("CapitalBeta"%string, 914); ("CapitalCAcute"%string, 262); ("CapitalCCedilla"%string, 199);
  ("CapitalCHacek"%string, 268); ("CapitalChi"%string, 935); ("CapitalDHacek"%string, 270);
  ("CapitalDelta"%string, 916); ("CapitalDifferentialD"%string, 63307); ("CapitalDigamma"%string, 988);
  ("CapitalEAcute"%string, 201); ("CapitalEBar"%string, 274); ("CapitalECup"%string, 276);
  ("CapitalEDoubleDot"%string, 203); ("CapitalEGrave"%string, 200); ("CapitalEHacek"%string, 282);
  ("CapitalEHat"%string, 202); ("CapitalEpsilon"%string, 917); ("CapitalEta"%string, 919);
  ("CapitalEth"%string, 208); ("CapitalGamma"%string, 915); ("CapitalIAcute"%string, 205);
  ("CapitalICup"%string, 300); ("CapitalIDoubleDot"%string, 207); ("CapitalIGrave"%string, 204);
  ("CapitalIHat"%string, 206); ("CapitalIota"%string, 921); ("CapitalKappa"%string, 922);
  ("CapitalKoppa"%string, 990); ("CapitalLSlash"%string, 321); ("CapitalLambda"%string, 923);
  ("CapitalMu"%string, 924); ("CapitalNHacek"%string, 327); ("CapitalNTilde"%string, 209);
  ("CapitalNu"%string, 925); ("CapitalOAcute"%string, 211); ("CapitalODoubleAcute"%string, 336);
  ("CapitalODoubleDot"%string, 214); ("CapitalOE"%string, 338); ("CapitalOGrave"%string, 210);
  ("CapitalOHat"%string, 212); ("CapitalOSlash"%string, 216); ("CapitalOTilde"%string, 213);
  ("CapitalOmega"%string, 937); ("CapitalOmicron"%string, 927); ("CapitalPhi"%string, 934);
  ("CapitalPi"%string, 928); ("CapitalPsi"%string, 936); ("CapitalRHacek"%string, 344);
  ("CapitalRho"%string, 929); ("CapitalSHacek"%string, 352); ("CapitalSampi"%string, 992);
  ("CapitalSigma"%string, 931); ("CapitalStigma"%string, 986); ("CapitalTHacek"%string, 356);
  ("CapitalTau"%string, 932); ("CapitalTheta"%string, 920); ("CapitalThorn"%string, 222);
  ("CapitalUAcute"%string, 218); ("CapitalUDoubleAcute"%string, 368); ("CapitalUDoubleDot"%string, 220);
  ("CapitalUGrave"%string, 217); ("CapitalUHat"%string, 219); ("CapitalURing"%string, 366);
  ("CapitalUpsilon"%string, 933); ("CapitalXi"%string, 926); ("CapitalYAcute"%string, 221);
  ("CapitalZHacek"%string, 381); ("CapitalZeta"%string, 918); ("CapricornSign"%string, 9809);
  ("Cedilla"%string, 184); ("Cent"%string, 162); ("CenterDot"%string, 183);
  ("CenterEllipsis"%string, 8943); ("CheckedBox"%string, 9746); ("Checkmark"%string, 10003);
  ("CheckmarkedBox"%string, 9745); ("Chi"%string, 967); ("CircleDot"%string, 8857);
  ("CircleMinus"%string, 8854); ("CirclePlus"%string, 8853); ("CircleTimes"%string, 8855);
  ("ClockwiseContourIntegral"%string, 8754); ("CloseCurlyDoubleQuote"%string, 8221); ("CloseCurlyQuote"%string, 8217);
  ("CloverLeaf"%string, 8984); ("ClubSuit"%string, 9827); ("Colon"%string, 8758);
  ("CommandKey"%string, 63338); ("Conditioned"%string, 62419); ("Congruent"%string, 8801);
  ("Conjugate"%string, 62408); ("ConjugateTranspose"%string, 62409); ("ConstantC"%string, 63450);
  ("Continuation"%string, 62385); ("ContinuedFractionK"%string, 62425); ("ContourIntegral"%string, 8750);
  ("ControlKey"%string, 63331); ("Coproduct"%string, 8720); ("Copyright"%string, 169);
  ("CounterClockwiseContourIntegral"%string, 8755); ("Cross"%string, 62624); ("CubeRoot"%string, 8731);
  ("Cup"%string, 8995); ("CupCap"%string, 8781); ("CurlyCapitalUpsilon"%string, 978);
  ("CurlyEpsilon"%string, 949); ("CurlyKappa"%string, 1008); ("CurlyPhi"%string, 966);
  ("CurlyPi"%string, 982); ("CurlyRho"%string, 1009); ("CurlyTheta"%string, 977);
  ("Currency"%string, 164); ("DHacek"%string, 271); ("Dagger"%string, 8224);
  ("Dalet"%string, 8504); ("Dash"%string, 8211); ("Degree"%string, 176);
  ("Del"%string, 8711); ("DeleteKey"%string, 63440); ("Delta"%string, 948);
  ("DescendingEllipsis"%string, 8945); ("Diameter"%string, 8960); ("Diamond"%string, 8900);
  ("DiamondSuit"%string, 9826); ("DifferenceDelta"%string, 62628); ("DifferentialD"%string, 63308);
  ("Digamma"%string, 989); ("DirectedEdge"%string, 62421); ("DiscreteRatio"%string, 62629);
  ("DiscreteShift"%string, 62627); ("DiscretionaryHyphen"%string, 173); ("DiscretionaryLineSeparator"%string, 63342);
  ("DiscretionaryPageBreakAbove"%string, 62399); ("DiscretionaryPageBreakBelow"%string, 62406); ("DiscretionaryParagraphSeparator"%string, 63343);
  ("Distributed"%string, 62418); ("Divide"%string, 247); ("Divides"%string, 8739);
  ("DivisionSlash"%string, 8725); ("DotEqual"%string, 8784); ("DotlessI"%string, 305);
  ("DotlessJ"%string, 63232); ("DottedSquare"%string, 63313); ("DoubleContourIntegral"%string, 8751);
  ("DoubleDagger"%string, 8225); ("DoubleDot"%string, 168); ("DoubleDownArrow"%string, 8659);
  ("DoubleLeftArrow"%string, 8656); ("DoubleLeftRightArrow"%string, 8660); ("DoubleLeftTee"%string, 10980);
  ("DoubleLongLeftArrow"%string, 10232); ("DoubleLongLeftRightArrow"%string, 10234); ("DoubleLongRightArrow"%string, 10233);
  ("DoublePrime"%string, 8243); ("DoubleRightArrow"%string, 8658); ("DoubleRightTee"%string, 8872);
  ("DoubleStruckA"%string, 63206); ("DoubleStruckB"%string, 63207); ("DoubleStruckC"%string, 63208);
  ("DoubleStruckCapitalA"%string, 63396); ("DoubleStruckCapitalB"%string, 63397); ("DoubleStruckCapitalC"%string, 63398);
  ("DoubleStruckCapitalD"%string, 63399); ("DoubleStruckCapitalE"%string, 63400); ("DoubleStruckCapitalF"%string, 63401);
  ("DoubleStruckCapitalG"%string, 63402); ("DoubleStruckCapitalH"%string, 63403); ("DoubleStruckCapitalI"%string, 63404);
  ("DoubleStruckCapitalJ"%string, 63405); ("DoubleStruckCapitalK"%string, 63406); ("DoubleStruckCapitalL"%string, 63407);
  ("DoubleStruckCapitalM"%string, 63408); ("DoubleStruckCapitalN"%string, 63409); ("DoubleStruckCapitalO"%string, 63410);
  ("DoubleStruckCapitalP"%string, 63411); ("DoubleStruckCapitalQ"%string, 63412); ("DoubleStruckCapitalR"%string, 63413);
  ("DoubleStruckCapitalS"%string, 63414); ("DoubleStruckCapitalT"%string, 63415); ("DoubleStruckCapitalU"%string, 63416);
  ("DoubleStruckCapitalV"%string, 63417); ("DoubleStruckCapitalW"%string, 63418); ("DoubleStruckCapitalX"%string, 63419);
  ("DoubleStruckCapitalY"%string, 63420); ("DoubleStruckCapitalZ"%string, 63421); ("DoubleStruckD"%string, 63209);
  ("DoubleStruckE"%string, 63210); ("DoubleStruckEight"%string, 63459); ("DoubleStruckF"%string, 63211);
  ("DoubleStruckFive"%string, 63456); ("DoubleStruckFour"%string, 63455); ("DoubleStruckG"%string, 63212);
  ("DoubleStruckH"%string, 63213); ("DoubleStruckI"%string, 63214); ("DoubleStruckJ"%string, 63215);
  ("DoubleStruckK"%string, 63216); ("DoubleStruckL"%string, 63217); ("DoubleStruckM"%string, 63218);
  ("DoubleStruckN"%string, 63219); ("DoubleStruckNine"%string, 63460); ("DoubleStruckO"%string, 63220);
  ("DoubleStruckOne"%string, 63452); ("DoubleStruckP"%string, 63221); ("DoubleStruckQ"%string, 63222);
  ("DoubleStruckR"%string, 63223); ("DoubleStruckS"%string, 63224); ("DoubleStruckSeven"%string, 63458);
  ("DoubleStruckSix"%string, 63457); ("DoubleStruckT"%string, 63225); ("DoubleStruckThree"%string, 63454);
  ("DoubleStruckTwo"%string, 63453); ("DoubleStruckU"%string, 63226); ("DoubleStruckV"%string, 63227);
  ("DoubleStruckW"%string, 63228); ("DoubleStruckX"%string, 63229); ("DoubleStruckY"%string, 63230);
  ("DoubleStruckZ"%string, 63231); ("DoubleStruckZero"%string, 63451); ("DoubleUpArrow"%string, 8657);
  ("DoubleUpDownArrow"%string, 8661); ("DoubleVerticalBar"%string, 8741); ("DoubledGamma"%string, 63306);
  ("DoubledPi"%string, 63305); ("DownArrow"%string, 8595); ("DownArrowBar"%string, 10515);
  ("DownArrowUpArrow"%string, 8693); ("DownBreve"%string, 63317); ("DownExclamation"%string, 161);
  ("DownLeftRightVector"%string, 10576); ("DownLeftTeeVector"%string, 10590); ("DownLeftVector"%string, 8637);
  ("DownLeftVectorBar"%string, 10582); ("DownPointer"%string, 9662); ("DownQuestion"%string, 191);
  ("DownRightTeeVector"%string, 10591); ("DownRightVector"%string, 8641); ("DownRightVectorBar"%string, 10583);
  ("DownTee"%string, 8868); ("DownTeeArrow"%string, 8615); ("EAcute"%string, 233);
  ("EBar"%string, 275); ("ECup"%string, 277); ("EDoubleDot"%string, 235);
  ("EGrave"%string, 232); ("EHacek"%string, 283); ("EHat"%string, 234);
  ("Earth"%string, 62431); ("EighthNote"%string, 9834); ("Element"%string, 8712);
  ("Ellipsis"%string, 8230); ("EmptyCircle"%string, 9675); ("EmptyDiamond"%string, 9671);
  ("EmptyDownTriangle"%string, 9661); ("EmptyRectangle"%string, 9647); ("EmptySet"%string, 8709);
  ("EmptySmallCircle"%string, 9702); ("EmptySmallSquare"%string, 9723); ("EmptySquare"%string, 9633);
  ("EmptyUpTriangle"%string, 9651); ("EmptyVerySmallSquare"%string, 9643); ("EnterKey"%string, 63444);
  ("EntityEnd"%string, 62393); ("EntityStart"%string, 62392); ("Epsilon"%string, 1013);
  ("Equal"%string, 62513); ("EqualTilde"%string, 8770); ("Equilibrium"%string, 8652);
  ("Equivalent"%string, 10726); ("ErrorIndicator"%string, 63335); ("EscapeKey"%string, 63337);
  ("Eta"%string, 951); ("Eth"%string, 240); ("Euro"%string, 8364);
  ("Exists"%string, 8707); ("ExpectationE"%string, 62429); ("ExponentialE"%string, 63309);
  ("FiLigature"%string, 64257); ("FilledCircle"%string, 9679); ("FilledDiamond"%string, 9670);
  ("FilledDownTriangle"%string, 9660); ("FilledLeftTriangle"%string, 9664); ("FilledRectangle"%string, 9646);
  ("FilledRightTriangle"%string, 9654); ("FilledSmallCircle"%string, 63312); ("FilledSmallSquare"%string, 9724);
  ("FilledSquare"%string, 9632); ("FilledUpTriangle"%string, 9650); ("FilledVerySmallSquare"%string, 9642);
  ("FinalSigma"%string, 962); ("FirstPage"%string, 63482); ("FivePointedStar"%string, 9733);
  ("FlLigature"%string, 64258); ("Flat"%string, 9837); ("Florin"%string, 402);
  ("ForAll"%string, 8704); ("FormalA"%string, 63488); ("FormalAlpha"%string, 63572);
  ("FormalB"%string, 63489); ("FormalBeta"%string, 63573); ("FormalC"%string, 63490);
  ("FormalCapitalA"%string, 63514); ("FormalCapitalAlpha"%string, 63540); ("FormalCapitalB"%string, 63515);
  ("FormalCapitalBeta"%string, 63541); ("FormalCapitalC"%string, 63516); ("FormalCapitalChi"%string, 63562);
  ("FormalCapitalD"%string, 63517); ("FormalCapitalDelta"%string, 63543); ("FormalCapitalDigamma"%string, 63615);
  ("FormalCapitalE"%string, 63518); ("FormalCapitalEpsilon"%string, 63544); ("FormalCapitalEta"%string, 63546);
  ("FormalCapitalF"%string, 63519); ("FormalCapitalG"%string, 63520); ("FormalCapitalGamma"%string, 63542);
  ("FormalCapitalH"%string, 63521); ("FormalCapitalI"%string, 63522); ("FormalCapitalIota"%string, 63548);
  ("FormalCapitalJ"%string, 63523); ("FormalCapitalK"%string, 63524); ("FormalCapitalKappa"%string, 63549);
  ("FormalCapitalKoppa"%string, 63617); ("FormalCapitalL"%string, 63525); ("FormalCapitalLambda"%string, 63550);
  ("FormalCapitalM"%string, 63526); ("FormalCapitalMu"%string, 63551); ("FormalCapitalN"%string, 63527);
  ("FormalCapitalNu"%string, 63552); ("FormalCapitalO"%string, 63528); ("FormalCapitalOmega"%string, 63564);
  ("FormalCapitalOmicron"%string, 63554); ("FormalCapitalP"%string, 63529); ("FormalCapitalPhi"%string, 63561);
  ("FormalCapitalPi"%string, 63555); ("FormalCapitalPsi"%string, 63563); ("FormalCapitalQ"%string, 63530);
  ("FormalCapitalR"%string, 63531); ("FormalCapitalRho"%string, 63556); ("FormalCapitalS"%string, 63532);
  ("FormalCapitalSampi"%string, 63619); ("FormalCapitalSigma"%string, 63558); ("FormalCapitalStigma"%string, 63613);
  ("FormalCapitalT"%string, 63533); ("FormalCapitalTau"%string, 63559); ("FormalCapitalTheta"%string, 63547);
  ("FormalCapitalU"%string, 63534); ("FormalCapitalUpsilon"%string, 63560); ("FormalCapitalV"%string, 63535);
  ("FormalCapitalW"%string, 63536); ("FormalCapitalX"%string, 63537); ("FormalCapitalXi"%string, 63553);
  ("FormalCapitalY"%string, 63538); ("FormalCapitalZ"%string, 63539); ("FormalCapitalZeta"%string, 63545);
  ("FormalChi"%string, 63594); ("FormalCurlyCapitalUpsilon"%string, 63605); ("FormalCurlyEpsilon"%string, 63576);
  ("FormalCurlyKappa"%string, 63621); ("FormalCurlyPhi"%string, 63593); ("FormalCurlyPi"%string, 63609);
  ("FormalCurlyRho"%string, 63622); ("FormalCurlyTheta"%string, 63604); ("FormalD"%string, 63491);
  ("FormalDelta"%string, 63575); ("FormalDigamma"%string, 63616); ("FormalE"%string, 63492);
  ("FormalEpsilon"%string, 63626); ("FormalEta"%string, 63578); ("FormalF"%string, 63493);
  ("FormalFinalSigma"%string, 63589); ("FormalG"%string, 63494); ("FormalGamma"%string, 63574);
  ("FormalH"%string, 63495); ("FormalI"%string, 63496); ("FormalIota"%string, 63580);
  ("FormalJ"%string, 63497); ("FormalK"%string, 63498); ("FormalKappa"%string, 63581);
  ("FormalKoppa"%string, 63618); ("FormalL"%string, 63499); ("FormalLambda"%string, 63582);
  ("FormalM"%string, 63500); ("FormalMu"%string, 63583); ("FormalN"%string, 63501);
  ("FormalNu"%string, 63584); ("FormalO"%string, 63502); ("FormalOmega"%string, 63596);
  ("FormalOmicron"%string, 63586); ("FormalP"%string, 63503); ("FormalPhi"%string, 63608);
  ("FormalPi"%string, 63587); ("FormalPsi"%string, 63595); ("FormalQ"%string, 63504);
  ("FormalR"%string, 63505); ("FormalRho"%string, 63588); ("FormalS"%string, 63506);
  ("FormalSampi"%string, 63620); ("FormalScriptA"%string, 1024000); ("FormalScriptB"%string, 1024001);
  ("FormalScriptC"%string, 1024002); ("FormalScriptCapitalA"%string, 1024026); ("FormalScriptCapitalB"%string, 1024027);
  ("FormalScriptCapitalC"%string, 1024028); ("FormalScriptCapitalD"%string, 1024029); ("FormalScriptCapitalE"%string, 1024030);
  ("FormalScriptCapitalF"%string, 1024031); ("FormalScriptCapitalG"%string, 1024032); ("FormalScriptCapitalH"%string, 1024033);
  ("FormalScriptCapitalI"%string, 1024034); ("FormalScriptCapitalJ"%string, 1024035); ("FormalScriptCapitalK"%string, 1024036);
  ("FormalScriptCapitalL"%string, 1024037); ("FormalScriptCapitalM"%string, 1024038); ("FormalScriptCapitalN"%string, 1024039);
  ("FormalScriptCapitalO"%string, 1024040); ("FormalScriptCapitalP"%string, 1024041); ("FormalScriptCapitalQ"%string, 1024042);
  ("FormalScriptCapitalR"%string, 1024043); ("FormalScriptCapitalS"%string, 1024044); ("FormalScriptCapitalT"%string, 1024045);
  ("FormalScriptCapitalU"%string, 1024046); ("FormalScriptCapitalV"%string, 1024047); ("FormalScriptCapitalW"%string, 1024048);
  ("FormalScriptCapitalX"%string, 1024049); ("FormalScriptCapitalY"%string, 1024050); ("FormalScriptCapitalZ"%string, 1024051);
  ("FormalScriptD"%string, 1024003); ("FormalScriptE"%string, 1024004); ("FormalScriptF"%string, 1024005);
  ("FormalScriptG"%string, 1024006); ("FormalScriptH"%string, 1024007); ("FormalScriptI"%string, 1024008);
  ("FormalScriptJ"%string, 1024009); ("FormalScriptK"%string, 1024010); ("FormalScriptL"%string, 1024011);
  ("FormalScriptM"%string, 1024012); ("FormalScriptN"%string, 1024013); ("FormalScriptO"%string, 1024014);
  ("FormalScriptP"%string, 1024015); ("FormalScriptQ"%string, 1024016); ("FormalScriptR"%string, 1024017);
  ("FormalScriptS"%string, 1024018); ("FormalScriptT"%string, 1024019); ("FormalScriptU"%string, 1024020);
  ("FormalScriptV"%string, 1024021); ("FormalScriptW"%string, 1024022); ("FormalScriptX"%string, 1024023);
  ("FormalScriptY"%string, 1024024); ("FormalScriptZ"%string, 1024025); ("FormalSigma"%string, 63590);
  ("FormalStigma"%string, 63614); ("FormalT"%string, 63507); ("FormalTau"%string, 63591);
  ("FormalTheta"%string, 63579); ("FormalU"%string, 63508); ("FormalUpsilon"%string, 63592);
  ("FormalV"%string, 63509); ("FormalW"%string, 63510); ("FormalX"%string, 63511);
  ("FormalXi"%string, 63585); ("FormalY"%string, 63512); ("FormalZ"%string, 63513);
  ("FormalZeta"%string, 63577); ("FreakedSmiley"%string, 63265); ("FreeformPrompt"%string, 62289);
  ("Function"%string, 62625); ("Gamma"%string, 947); ("GeminiSign"%string, 9802);
  ("Gimel"%string, 8503); ("GothicA"%string, 63180); ("GothicB"%string, 63181);
  ("GothicC"%string, 63182); ("GothicCapitalA"%string, 63370); ("GothicCapitalB"%string, 63371);
  ("GothicCapitalC"%string, 8493); ("GothicCapitalD"%string, 63373); ("GothicCapitalE"%string, 63374);
  ("GothicCapitalF"%string, 63375); ("GothicCapitalG"%string, 63376); ("GothicCapitalH"%string, 8460);
  ("GothicCapitalI"%string, 8465); ("GothicCapitalJ"%string, 63379); ("GothicCapitalK"%string, 63380);
  ("GothicCapitalL"%string, 63381); ("GothicCapitalM"%string, 63382); ("GothicCapitalN"%string, 63383);
  ("GothicCapitalO"%string, 63384); ("GothicCapitalP"%string, 63385); ("GothicCapitalQ"%string, 63386);
  ("GothicCapitalR"%string, 8476); ("GothicCapitalS"%string, 63388); ("GothicCapitalT"%string, 63389);
  ("GothicCapitalU"%string, 63390); ("GothicCapitalV"%string, 63391); ("GothicCapitalW"%string, 63392);
  ("GothicCapitalX"%string, 63393); ("GothicCapitalY"%string, 63394); ("GothicCapitalZ"%string, 8488);
  ("GothicD"%string, 63183); ("GothicE"%string, 63184); ("GothicEight"%string, 63469);
  ("GothicF"%string, 63185); ("GothicFive"%string, 63466); ("GothicFour"%string, 63465);
  ("GothicG"%string, 63186); ("GothicH"%string, 63187); ("GothicI"%string, 63188);
  ("GothicJ"%string, 63189); ("GothicK"%string, 63190); ("GothicL"%string, 63191);
  ("GothicM"%string, 63192); ("GothicN"%string, 63193); ("GothicNine"%string, 63471);
  ("GothicO"%string, 63194); ("GothicOne"%string, 63462); ("GothicP"%string, 63195);
  ("GothicQ"%string, 63196); ("GothicR"%string, 63197); ("GothicS"%string, 63198);
  ("GothicSeven"%string, 63468); ("GothicSix"%string, 63467); ("GothicT"%string, 63199);
  ("GothicThree"%string, 63464); ("GothicTwo"%string, 63463); ("GothicU"%string, 63200);
  ("GothicV"%string, 63201); ("GothicW"%string, 63202); ("GothicX"%string, 63203);
  ("GothicY"%string, 63204); ("GothicZ"%string, 63205); ("GothicZero"%string, 63461);
  ("GrayCircle"%string, 63315); ("GraySquare"%string, 63314); ("GreaterEqual"%string, 8805);
  ("GreaterEqualLess"%string, 8923); ("GreaterFullEqual"%string, 8807); ("GreaterGreater"%string, 8811);
  ("GreaterLess"%string, 8823); ("GreaterSlantEqual"%string, 10878); ("GreaterTilde"%string, 8819);
  ("HBar"%string, 8463); ("Hacek"%string, 711); ("HappySmiley"%string, 9786);
  ("HeartSuit"%string, 9825); ("HermitianConjugate"%string, 62414); ("HorizontalLine"%string, 9472);
  ("HumpDownHump"%string, 8782); ("HumpEqual"%string, 8783); ("Hyphen"%string, 8208);
  ("IAcute"%string, 237); ("ICup"%string, 301); ("IDoubleDot"%string, 239);
  ("IGrave"%string, 236); ("IHat"%string, 238); ("ImaginaryI"%string, 63310);
  ("ImaginaryJ"%string, 63311); ("ImplicitPlus"%string, 62366); ("Implies"%string, 62755);
  ("IndentingNewLine"%string, 62371); ("Infinity"%string, 8734); ("InlinePart"%string, 62750);
  ("Integral"%string, 8747); ("Intersection"%string, 8898); ("InvisibleApplication"%string, 63341);
  ("InvisibleComma"%string, 63333); ("InvisiblePostfixScriptBase"%string, 62388); ("InvisiblePrefixScriptBase"%string, 62387);
  ("InvisibleSpace"%string, 62304); ("InvisibleTimes"%string, 8290); ("Iota"%string, 953);
  ("Jupiter"%string, 9795); ("Kappa"%string, 954); ("KernelIcon"%string, 63318);
  ("KeyBar"%string, 63443); ("Koppa"%string, 991); ("LSlash"%string, 322);
  ("Lambda"%string, 955); ("LastPage"%string, 63483); ("LeftAngleBracket"%string, 9001);
  ("LeftArrow"%string, 8592); ("LeftArrowBar"%string, 8676); ("LeftArrowRightArrow"%string, 8646);
  ("LeftAssociation"%string, 61715); ("LeftBracketingBar"%string, 62979); ("LeftCeiling"%string, 8968);
  ("LeftDoubleBracket"%string, 12314); ("LeftDoubleBracketingBar"%string, 62981); ("LeftDownTeeVector"%string, 10593);
  ("LeftDownVector"%string, 8643); ("LeftDownVectorBar"%string, 10585); ("LeftFloor"%string, 8970);
  ("LeftGuillemet"%string, 171); ("LeftModified"%string, 63339); ("LeftPointer"%string, 9666);
  ("LeftRightArrow"%string, 8596); ("LeftRightVector"%string, 10574); ("LeftSkeleton"%string, 63329);
  ("LeftTee"%string, 8867); ("LeftTeeArrow"%string, 8612); ("LeftTeeVector"%string, 10586);
  ("LeftTriangle"%string, 8882); ("LeftTriangleBar"%string, 10703); ("LeftTriangleEqual"%string, 8884);
  ("LeftUpDownVector"%string, 10577); ("LeftUpTeeVector"%string, 10592); ("LeftUpVector"%string, 8639);
  ("LeftUpVectorBar"%string, 10584); ("LeftVector"%string, 8636); ("LeftVectorBar"%string, 10578);
  ("LeoSign"%string, 9804); ("LessEqual"%string, 8804); ("LessEqualGreater"%string, 8922);
  ("LessFullEqual"%string, 8806); ("LessGreater"%string, 8822); ("LessLess"%string, 8810);
  ("LessSlantEqual"%string, 10877); ("LessTilde"%string, 8818); ("LetterSpace"%string, 63316);
  ("LibraSign"%string, 9806); ("LightBulb"%string, 63267); ("Limit"%string, 62520);
  ("LineSeparator"%string, 8232); ("LongDash"%string, 8212); ("LongEqual"%string, 63449);
  ("LongLeftArrow"%string, 10229); ("LongLeftRightArrow"%string, 10231); ("LongRightArrow"%string, 10230);
  ("LowerLeftArrow"%string, 8601); ("LowerRightArrow"%string, 8600); ("Mars"%string, 9794);
  ("MathematicaIcon"%string, 63319); ("MaxLimit"%string, 62521); ("MeasuredAngle"%string, 8737);
  ("MediumSpace"%string, 8287); ("Mercury"%string, 9791); ("Mho"%string, 8487);
  ("Micro"%string, 181); ("MinLimit"%string, 62522); ("Minus"%string, 8722);
  ("MinusPlus"%string, 8723); ("Mod1Key"%string, 63446); ("Mod2Key"%string, 63447);
  ("Moon"%string, 9790); ("Mu"%string, 956); ("NHacek"%string, 328);
  ("NTilde"%string, 241); ("Nand"%string, 8892); ("Natural"%string, 9838);
  ("NegativeMediumSpace"%string, 62339); ("NegativeThickSpace"%string, 62340); ("NegativeThinSpace"%string, 62338);
  ("NegativeVeryThinSpace"%string, 62336); ("Neptune"%string, 9798); ("NestedGreaterGreater"%string, 10914);
  ("NestedLessLess"%string, 10913); ("NeutralSmiley"%string, 63266); ("NewLine"%string, 10);
  ("NoBreak"%string, 8288); ("NonBreakingSpace"%string, 160); ("Nor"%string, 8893);
  ("Not"%string, 172); ("NotCongruent"%string, 8802); ("NotCupCap"%string, 8813);
  ("NotDoubleVerticalBar"%string, 8742); ("NotElement"%string, 8713); ("NotEqual"%string, 8800);
  ("NotEqualTilde"%string, 62464); ("NotExists"%string, 8708); ("NotGreater"%string, 8815);
  ("NotGreaterEqual"%string, 8817); ("NotGreaterFullEqual"%string, 8809); ("NotGreaterGreater"%string, 62503);
  ("NotGreaterLess"%string, 8825); ("NotGreaterSlantEqual"%string, 62505); ("NotGreaterTilde"%string, 8821);
  ("NotHumpDownHump"%string, 62466); ("NotHumpEqual"%string, 62465); ("NotLeftTriangle"%string, 8938);
  ("NotLeftTriangleBar"%string, 62482); ("NotLeftTriangleEqual"%string, 8940); ("NotLess"%string, 8814);
  ("NotLessEqual"%string, 8816); ("NotLessFullEqual"%string, 8808); ("NotLessGreater"%string, 8824);
  ("NotLessLess"%string, 62498); ("NotLessSlantEqual"%string, 62500); ("NotLessTilde"%string, 8820);
  ("NotNestedGreaterGreater"%string, 62504); ("NotNestedLessLess"%string, 62499); ("NotPrecedes"%string, 8832);
  ("NotPrecedesEqual"%string, 62507); ("NotPrecedesSlantEqual"%string, 8928); ("NotPrecedesTilde"%string, 8936);
  ("NotReverseElement"%string, 8716); ("NotRightTriangle"%string, 8939); ("NotRightTriangleBar"%string, 62483);
  ("NotRightTriangleEqual"%string, 8941); ("NotSquareSubset"%string, 62510); ("NotSquareSubsetEqual"%string, 8930);
  ("NotSquareSuperset"%string, 62511); ("NotSquareSupersetEqual"%string, 8931); ("NotSubset"%string, 8836);
  ("NotSubsetEqual"%string, 8840); ("NotSucceeds"%string, 8833); ("NotSucceedsEqual"%string, 62509);
  ("NotSucceedsSlantEqual"%string, 8929); ("NotSucceedsTilde"%string, 8937); ("NotSuperset"%string, 8837);
  ("NotSupersetEqual"%string, 8841); ("NotTilde"%string, 8769); ("NotTildeEqual"%string, 8772);
  ("NotTildeFullEqual"%string, 8775); ("NotTildeTilde"%string, 8777); ("NotVerticalBar"%string, 62417);
  ("Nu"%string, 957); ("Null"%string, 62368); ("NumberComma"%string, 63484);
  ("NumberSign"%string, 63268); ("OAcute"%string, 243); ("ODoubleAcute"%string, 337);
  ("ODoubleDot"%string, 246); ("OE"%string, 339); ("OGrave"%string, 242);
  ("OHat"%string, 244); ("OSlash"%string, 248); ("OTilde"%string, 245);
  ("Omega"%string, 969); ("Omicron"%string, 959); ("OpenCurlyDoubleQuote"%string, 8220);
  ("OpenCurlyQuote"%string, 8216); ("OptionKey"%string, 63442); ("Or"%string, 8744);
  ("OverBrace"%string, 65079); ("OverBracket"%string, 9140); ("OverParenthesis"%string, 65077);
  ("PageBreakAbove"%string, 62397); ("PageBreakBelow"%string, 62398); ("Paragraph"%string, 182);
  ("ParagraphSeparator"%string, 8233); ("PartialD"%string, 8706); ("PermutationProduct"%string, 62430);
  ("Perpendicular"%string, 10178); ("Phi"%string, 981); ("Pi"%string, 960);
  ("Piecewise"%string, 62305); ("PiscesSign"%string, 9811); ("Placeholder"%string, 62760);
  ("PlusMinus"%string, 177); ("Pluto"%string, 9799); ("Precedes"%string, 8826);
  ("PrecedesEqual"%string, 10927); ("PrecedesSlantEqual"%string, 8828); ("PrecedesTilde"%string, 8830);
  ("Prime"%string, 8242); ("ProbabilityPr"%string, 62428); ("Product"%string, 8719);
  ("Proportion"%string, 8759); ("Proportional"%string, 8733); ("Psi"%string, 968);
  ("QuarterNote"%string, 9833); ("RHacek"%string, 345); ("RawAmpersand"%string, 38);
  ("RawAt"%string, 64); ("RawBackquote"%string, 96); ("RawBackslash"%string, (-7));
  ("RawColon"%string, 58); ("RawComma"%string, 44); ("RawDash"%string, 45);
  ("RawDollar"%string, 36); ("RawDot"%string, 46); ("RawDoubleQuote"%string, (-6));
  ("RawEqual"%string, 61); ("RawEscape"%string, 27); ("RawExclamation"%string, 33);
  ("RawGreater"%string, 62); ("RawLeftBrace"%string, 123); ("RawLeftBracket"%string, 91);
  ("RawLeftParenthesis"%string, 40); ("RawLess"%string, 60); ("RawNumberSign"%string, 35);
  ("RawPercent"%string, 37); ("RawPlus"%string, 43); ("RawQuestion"%string, 63);
  ("RawQuote"%string, 39); ("RawReturn"%string, 13); ("RawRightBrace"%string, 125);
  ("RawRightBracket"%string, 93); ("RawRightParenthesis"%string, 41); ("RawSemicolon"%string, 59);
  ("RawSlash"%string, 47); ("RawSpace"%string, 32); ("RawStar"%string, 42);
  ("RawTab"%string, 9); ("RawTilde"%string, 126); ("RawUnderscore"%string, 95);
  ("RawVerticalBar"%string, 124); ("RawWedge"%string, 94); ("RegisteredTrademark"%string, 174);
  ("ReturnIndicator"%string, 8629); ("ReturnKey"%string, 63334); ("ReverseDoublePrime"%string, 8246);
  ("ReverseElement"%string, 8715); ("ReverseEquilibrium"%string, 8651); ("ReversePrime"%string, 8245);
  ("ReverseUpEquilibrium"%string, 10607); ("Rho"%string, 961); ("RightAngle"%string, 8735);
  ("RightAngleBracket"%string, 9002); ("RightArrow"%string, 8594); ("RightArrowBar"%string, 8677);
  ("RightArrowLeftArrow"%string, 8644); ("RightAssociation"%string, 61716); ("RightBracketingBar"%string, 62980);
  ("RightCeiling"%string, 8969); ("RightDoubleBracket"%string, 12315); ("RightDoubleBracketingBar"%string, 62982);
  ("RightDownTeeVector"%string, 10589); ("RightDownVector"%string, 8642); ("RightDownVectorBar"%string, 10581);
  ("RightFloor"%string, 8971); ("RightGuillemet"%string, 187); ("RightModified"%string, 63340);
  ("RightPointer"%string, 9656); ("RightSkeleton"%string, 63330); ("RightTee"%string, 8866);
  ("RightTeeArrow"%string, 8614); ("RightTeeVector"%string, 10587); ("RightTriangle"%string, 8883);
  ("RightTriangleBar"%string, 10704); ("RightTriangleEqual"%string, 8885); ("RightUpDownVector"%string, 10575);
  ("RightUpTeeVector"%string, 10588); ("RightUpVector"%string, 8638); ("RightUpVectorBar"%string, 10580);
  ("RightVector"%string, 8640); ("RightVectorBar"%string, 10579); ("RoundImplies"%string, 10608);
  ("RoundSpaceIndicator"%string, 62386); ("Rule"%string, 62754); ("RuleDelayed"%string, 62751);
  ("Rupee"%string, 8377); ("SHacek"%string, 353); ("SZ"%string, 223);
  ("SadSmiley"%string, 9785); ("SagittariusSign"%string, 9808); ("Sampi"%string, 993);
  ("Saturn"%string, 9796); ("ScorpioSign"%string, 9807); ("ScriptA"%string, 63154);
  ("ScriptB"%string, 63155); ("ScriptC"%string, 63156); ("ScriptCapitalA"%string, 63344);
  ("ScriptCapitalB"%string, 8492); ("ScriptCapitalC"%string, 63346); ("ScriptCapitalD"%string, 63347);
  ("ScriptCapitalE"%string, 8496); ("ScriptCapitalF"%string, 8497); ("ScriptCapitalG"%string, 63350);
  ("ScriptCapitalH"%string, 8459); ("ScriptCapitalI"%string, 8464); ("ScriptCapitalJ"%string, 63353);
  ("ScriptCapitalK"%string, 63354); ("ScriptCapitalL"%string, 8466); ("ScriptCapitalM"%string, 8499);
  ("ScriptCapitalN"%string, 63357); ("ScriptCapitalO"%string, 63358); ("ScriptCapitalP"%string, 63359);
  ("ScriptCapitalQ"%string, 63360); ("ScriptCapitalR"%string, 8475); ("ScriptCapitalS"%string, 63362);
  ("ScriptCapitalT"%string, 63363); ("ScriptCapitalU"%string, 63364); ("ScriptCapitalV"%string, 63365);
  ("ScriptCapitalW"%string, 63366); ("ScriptCapitalX"%string, 63367); ("ScriptCapitalY"%string, 63368);
  ("ScriptCapitalZ"%string, 63369); ("ScriptD"%string, 63157); ("ScriptDotlessI"%string, 63280);
  ("ScriptDotlessJ"%string, 63281); ("ScriptE"%string, 8495); ("ScriptEight"%string, 63480);
  ("ScriptF"%string, 63159); ("ScriptFive"%string, 63477); ("ScriptFour"%string, 63476);
  ("ScriptG"%string, 8458); ("ScriptH"%string, 63161); ("ScriptI"%string, 63162);
  ("ScriptJ"%string, 63163); ("ScriptK"%string, 63164); ("ScriptL"%string, 8467);
  ("ScriptM"%string, 63166); ("ScriptN"%string, 63167); ("ScriptNine"%string, 63481);
  ("ScriptO"%string, 8500); ("ScriptOne"%string, 63473); ("ScriptP"%string, 63169);
  ("ScriptQ"%string, 63170); ("ScriptR"%string, 63171); ("ScriptS"%string, 63172);
  ("ScriptSeven"%string, 63479); ("ScriptSix"%string, 63478); ("ScriptT"%string, 63173);
  ("ScriptThree"%string, 63475); ("ScriptTwo"%string, 63474); ("ScriptU"%string, 63174);
  ("ScriptV"%string, 63175); ("ScriptW"%string, 63176); ("ScriptX"%string, 63177);
  ("ScriptY"%string, 63178); ("ScriptZ"%string, 63179); ("ScriptZero"%string, 63472);
  ("Section"%string, 167); ("SelectionPlaceholder"%string, 62759); ("Shah"%string, 61725);
  ("Sharp"%string, 9839); ("ShiftKey"%string, 63445); ("ShortDownArrow"%string, 62763);
  ("ShortLeftArrow"%string, 62758); ("ShortRightArrow"%string, 62757); ("ShortUpArrow"%string, 62762);
  ("Sigma"%string, 963); ("SixPointedStar"%string, 10038); ("SkeletonIndicator"%string, 8259);
  ("SmallCircle"%string, 8728); ("SpaceIndicator"%string, 9251); ("SpaceKey"%string, 63423);
  ("SpadeSuit"%string, 9824); ("SpanFromAbove"%string, 62395); ("SpanFromBoth"%string, 62396);
  ("SpanFromLeft"%string, 62394); ("SphericalAngle"%string, 8738); ("Spooky"%string, 63274);
  ("Sqrt"%string, 8730); ("Square"%string, 62752); ("SquareIntersection"%string, 8851);
  ("SquareSubset"%string, 8847); ("SquareSubsetEqual"%string, 8849); ("SquareSuperset"%string, 8848);
  ("SquareSupersetEqual"%string, 8850); ("SquareUnion"%string, 8852); ("Star"%string, 8902);
  ("StepperDown"%string, 62413); ("StepperLeft"%string, 62411); ("StepperRight"%string, 62410);
  ("StepperUp"%string, 62412); ("Sterling"%string, 163); ("Stigma"%string, 987);
  ("Subset"%string, 8834); ("SubsetEqual"%string, 8838); ("Succeeds"%string, 8827);
  ("SucceedsEqual"%string, 10928); ("SucceedsSlantEqual"%string, 8829); ("SucceedsTilde"%string, 8831);
  ("SuchThat"%string, 8717); ("Sum"%string, 8721); ("Sun"%string, 9737);
  ("Superset"%string, 8835); ("SupersetEqual"%string, 8839); ("SystemEnterKey"%string, 63327);
  ("SystemsModelDelay"%string, 62383); ("THacek"%string, 357); ("TabKey"%string, 63422);
  ("Tau"%string, 964); ("TaurusSign"%string, 9801); ("TensorProduct"%string, 62426);
  ("TensorWedge"%string, 62427); ("Therefore"%string, 8756); ("Theta"%string, 952);
  ("ThickSpace"%string, 8197); ("ThinSpace"%string, 8201); ("Thorn"%string, 254);
  ("Tilde"%string, 8764); ("TildeEqual"%string, 8771); ("TildeFullEqual"%string, 8773);
  ("TildeTilde"%string, 8776); ("Times"%string, 215); ("Trademark"%string, 8482);
  ("Transpose"%string, 62407); ("TripleDot"%string, 63320); ("TwoWayRule"%string, 61728);
  ("UAcute"%string, 250); ("UDoubleAcute"%string, 369); ("UDoubleDot"%string, 252);
  ("UGrave"%string, 249); ("UHat"%string, 251); ("URing"%string, 367);
  ("UnderBrace"%string, 65080); ("UnderBracket"%string, 9141); ("UnderParenthesis"%string, 65078);
  ("UndirectedEdge"%string, 62420); ("Union"%string, 8899); ("UnionPlus"%string, 8846);
  ("UnknownGlyph"%string, 65533); ("UpArrow"%string, 8593); ("UpArrowBar"%string, 10514);
  ("UpArrowDownArrow"%string, 8645); ("UpDownArrow"%string, 8597); ("UpEquilibrium"%string, 10606);
  ("UpPointer"%string, 9652); ("UpTee"%string, 8869); ("UpTeeArrow"%string, 8613);
  ("UpperLeftArrow"%string, 8598); ("UpperRightArrow"%string, 8599); ("Upsilon"%string, 965);
  ("Uranus"%string, 9954); ("VectorGreater"%string, 62516); ("VectorGreaterEqual"%string, 62517);
  ("VectorLess"%string, 62518); ("VectorLessEqual"%string, 62519); ("Vee"%string, 8897);
  ("Venus"%string, 9792); ("VerticalBar"%string, 62416); ("VerticalEllipsis"%string, 8942);
  ("VerticalLine"%string, 9474); ("VerticalSeparator"%string, 62514); ("VerticalTilde"%string, 8768);
  ("VeryThinSpace"%string, 8202); ("Villa"%string, 63271); ("VirgoSign"%string, 9805);
  ("WarningSign"%string, 63269); ("WatchIcon"%string, 8986); ("Wedge"%string, 8896);
  ("WeierstrassP"%string, 8472); ("WhiteBishop"%string, 9815); ("WhiteKing"%string, 9812);
  ("WhiteKnight"%string, 9816); ("WhitePawn"%string, 9817); ("WhiteQueen"%string, 9813);
  ("WhiteRook"%string, 9814); ("Wolf"%string, 63264); ("WolframAlphaPrompt"%string, 62290);
  ("WolframLanguageLogo"%string, 61726); ("WolframLanguageLogoCircle"%string, 61727); ("Xi"%string, 958);
  ("Xnor"%string, 62626); ("Xor"%string, 8891); ("YAcute"%string, 253);
  ("YDoubleDot"%string, 255); ("Yen"%string, 165); ("ZHacek"%string, 382);
  ("Zeta"%string, 950)
].

(** CODEPOINT_TO_LONGNAME_MAP *)
Definition CODEPOINT_TO_LONGNAME : list (Z * string) := [
  (9, "RawTab"%string); (10, "NewLine"%string); (13, "RawReturn"%string);
  (27, "RawEscape"%string); (32, "RawSpace"%string); (33, "RawExclamation"%string);
  ((-6), "RawDoubleQuote"%string); (35, "RawNumberSign"%string); (36, "RawDollar"%string);
  (37, "RawPercent"%string); (38, "RawAmpersand"%string); (39, "RawQuote"%string);
  (40, "RawLeftParenthesis"%string); (41, "RawRightParenthesis"%string); (42, "RawStar"%string);
  (43, "RawPlus"%string); (44, "RawComma"%string); (45, "RawDash"%string);
  (46, "RawDot"%string); (47, "RawSlash"%string); (58, "RawColon"%string);
  (59, "RawSemicolon"%string); (60, "RawLess"%string); (61, "RawEqual"%string);
  (62, "RawGreater"%string); (63, "RawQuestion"%string); (64, "RawAt"%string);
  (91, "RawLeftBracket"%string); ((-7), "RawBackslash"%string); (93, "RawRightBracket"%string);
  (94, "RawWedge"%string); (95, "RawUnderscore"%string); (96, "RawBackquote"%string);
  (123, "RawLeftBrace"%string); (124, "RawVerticalBar"%string); (125, "RawRightBrace"%string);
  (126, "RawTilde"%string); (160, "NonBreakingSpace"%string); (161, "DownExclamation"%string);
  (162, "Cent"%string); (163, "Sterling"%string); (164, "Currency"%string);
  (165, "Yen"%string); (167, "Section"%string); (168, "DoubleDot"%string);
  (169, "Copyright"%string); (171, "LeftGuillemet"%string); (172, "Not"%string);
  (173, "DiscretionaryHyphen"%string); (174, "RegisteredTrademark"%string); (176, "Degree"%string);
  (177, "PlusMinus"%string); (181, "Micro"%string); (182, "Paragraph"%string);
  (183, "CenterDot"%string); (184, "Cedilla"%string); (187, "RightGuillemet"%string);
  (191, "DownQuestion"%string); (192, "CapitalAGrave"%string); (193, "CapitalAAcute"%string);
  (194, "CapitalAHat"%string); (195, "CapitalATilde"%string); (196, "CapitalADoubleDot"%string);
  (197, "CapitalARing"%string); (198, "CapitalAE"%string); (199, "CapitalCCedilla"%string);
  (200, "CapitalEGrave"%string); (201, "CapitalEAcute"%string); (202, "CapitalEHat"%string);
  (203, "CapitalEDoubleDot"%string); (204, "CapitalIGrave"%string); (205, "CapitalIAcute"%string);
  (206, "CapitalIHat"%string); (207, "CapitalIDoubleDot"%string); (208, "CapitalEth"%string);
  (209, "CapitalNTilde"%string); (210, "CapitalOGrave"%string); (211, "CapitalOAcute"%string);
  (212, "CapitalOHat"%string); (213, "CapitalOTilde"%string); (214, "CapitalODoubleDot"%string);
  (215, "Times"%string); (216, "CapitalOSlash"%string); (217, "CapitalUGrave"%string);
  (218, "CapitalUAcute"%string); (219, "CapitalUHat"%string); (220, "CapitalUDoubleDot"%string);
  (221, "CapitalYAcute"%string); (222, "CapitalThorn"%string); (223, "SZ"%string);
  (224, "AGrave"%string); (225, "AAcute"%string); (226, "AHat"%string);
  (227, "ATilde"%string); (228, "ADoubleDot"%string); (229, "ARing"%string);
  (230, "AE"%string); (231, "CCedilla"%string); (232, "EGrave"%string);
  (233, "EAcute"%string); (234, "EHat"%string); (235, "EDoubleDot"%string);
  (236, "IGrave"%string); (237, "IAcute"%string); (238, "IHat"%string);
  (239, "IDoubleDot"%string); (240, "Eth"%string); (241, "NTilde"%string);
  (242, "OGrave"%string); (243, "OAcute"%string); (244, "OHat"%string);
  (245, "OTilde"%string); (246, "ODoubleDot"%string); (247, "Divide"%string);
  (248, "OSlash"%string); (249, "UGrave"%string); (250, "UAcute"%string);
  (251, "UHat"%string); (252, "UDoubleDot"%string); (253, "YAcute"%string);
  (254, "Thorn"%string); (255, "YDoubleDot"%string); (256, "CapitalABar"%string);
  (257, "ABar"%string); (258, "CapitalACup"%string); (259, "ACup"%string);
  (262, "CapitalCAcute"%string); (263, "CAcute"%string); (268, "CapitalCHacek"%string);
  (269, "CHacek"%string); (270, "CapitalDHacek"%string); (271, "DHacek"%string);
  (274, "CapitalEBar"%string); (275, "EBar"%string); (276, "CapitalECup"%string);
  (277, "ECup"%string); (282, "CapitalEHacek"%string); (283, "EHacek"%string);
  (300, "CapitalICup"%string); (301, "ICup"%string); (305, "DotlessI"%string);
  (321, "CapitalLSlash"%string); (322, "LSlash"%string); (327, "CapitalNHacek"%string);
  (328, "NHacek"%string); (336, "CapitalODoubleAcute"%string); (337, "ODoubleAcute"%string);
  (338, "CapitalOE"%string); (339, "OE"%string); (344, "CapitalRHacek"%string);
  (345, "RHacek"%string); (352, "CapitalSHacek"%string); (353, "SHacek"%string);
  (356, "CapitalTHacek"%string); (357, "THacek"%string); (366, "CapitalURing"%string);
  (367, "URing"%string); (368, "CapitalUDoubleAcute"%string); (369, "UDoubleAcute"%string);
  (381, "CapitalZHacek"%string); (382, "ZHacek"%string); (402, "Florin"%string);
  (711, "Hacek"%string); (728, "Breve"%string); (913, "CapitalAlpha"%string);
  (914, "CapitalBeta"%string); (915, "CapitalGamma"%string); (916, "CapitalDelta"%string);
  (917, "CapitalEpsilon"%string); (918, "CapitalZeta"%string); (919, "CapitalEta"%string);
  (920, "CapitalTheta"%string); (921, "CapitalIota"%string); (922, "CapitalKappa"%string);
  (923, "CapitalLambda"%string); (924, "CapitalMu"%string); (925, "CapitalNu"%string);
  (926, "CapitalXi"%string); (927, "CapitalOmicron"%string); (928, "CapitalPi"%string);
  (929, "CapitalRho"%string); (931, "CapitalSigma"%string); (932, "CapitalTau"%string);
  (933, "CapitalUpsilon"%string); (934, "CapitalPhi"%string); (935, "CapitalChi"%string);
  (936, "CapitalPsi"%string); (937, "CapitalOmega"%string); (945, "Alpha"%string);
  (946, "Beta"%string); (947, "Gamma"%string); (948, "Delta"%string);
  (949, "CurlyEpsilon"%string); (950, "Zeta"%string); (951, "Eta"%string);
  (952, "Theta"%string); (953, "Iota"%string); (954, "Kappa"%string);
  (955, "Lambda"%string); (956, "Mu"%string); (957, "Nu"%string);
  (958, "Xi"%string); (959, "Omicron"%string); (960, "Pi"%string);
  (961, "Rho"%string); (962, "FinalSigma"%string); (963, "Sigma"%string);
  (964, "Tau"%string); (965, "Upsilon"%string); (966, "CurlyPhi"%string);
  (967, "Chi"%string); (968, "Psi"%string); (969, "Omega"%string);
  (977, "CurlyTheta"%string); (978, "CurlyCapitalUpsilon"%string); (981, "Phi"%string);
  (982, "CurlyPi"%string); (986, "CapitalStigma"%string); (987, "Stigma"%string);
  (988, "CapitalDigamma"%string); (989, "Digamma"%string); (990, "CapitalKoppa"%string);
  (991, "Koppa"%string); (992, "CapitalSampi"%string); (993, "Sampi"%string);
  (1008, "CurlyKappa"%string); (1009, "CurlyRho"%string); (1013, "Epsilon"%string);
  (8197, "ThickSpace"%string); (8201, "ThinSpace"%string); (8202, "VeryThinSpace"%string);
  (8208, "Hyphen"%string); (8211, "Dash"%string); (8212, "LongDash"%string);
  (8216, "OpenCurlyQuote"%string); (8217, "CloseCurlyQuote"%string); (8220, "OpenCurlyDoubleQuote"%string);
  (8221, "CloseCurlyDoubleQuote"%string); (8224, "Dagger"%string); (8225, "DoubleDagger"%string);
  (8226, "Bullet"%string); (8230, "Ellipsis"%string); (8232, "LineSeparator"%string);
  (8233, "ParagraphSeparator"%string); (8242, "Prime"%string); (8243, "DoublePrime"%string);
  (8245, "ReversePrime"%string); (8246, "ReverseDoublePrime"%string); (8259, "SkeletonIndicator"%string);
  (8287, "MediumSpace"%string); (8288, "NoBreak"%string); (8290, "InvisibleTimes"%string);
  (8364, "Euro"%string); (8377, "Rupee"%string); (8458, "ScriptG"%string);
  (8459, "ScriptCapitalH"%string); (8460, "GothicCapitalH"%string); (8463, "HBar"%string);
  (8464, "ScriptCapitalI"%string); (8465, "GothicCapitalI"%string); (8466, "ScriptCapitalL"%string);
  (8467, "ScriptL"%string); (8472, "WeierstrassP"%string); (8475, "ScriptCapitalR"%string);
  (8476, "GothicCapitalR"%string); (8482, "Trademark"%string); (8487, "Mho"%string);
  (8488, "GothicCapitalZ"%string); (8491, "Angstrom"%string); (8492, "ScriptCapitalB"%string);
  (8493, "GothicCapitalC"%string); (8495, "ScriptE"%string); (8496, "ScriptCapitalE"%string);
  (8497, "ScriptCapitalF"%string); (8499, "ScriptCapitalM"%string); (8500, "ScriptO"%string);
  (8501, "Aleph"%string); (8502, "Bet"%string); (8503, "Gimel"%string);
  (8504, "Dalet"%string); (8592, "LeftArrow"%string); (8593, "UpArrow"%string);
  (8594, "RightArrow"%string); (8595, "DownArrow"%string); (8596, "LeftRightArrow"%string);
  (8597, "UpDownArrow"%string); (8598, "UpperLeftArrow"%string); (8599, "UpperRightArrow"%string);
  (8600, "LowerRightArrow"%string); (8601, "LowerLeftArrow"%string); (8612, "LeftTeeArrow"%string);
  (8613, "UpTeeArrow"%string); (8614, "RightTeeArrow"%string); (8615, "DownTeeArrow"%string);
  (8629, "ReturnIndicator"%string); (8636, "LeftVector"%string); (8637, "DownLeftVector"%string);
  (8638, "RightUpVector"%string); (8639, "LeftUpVector"%string); (8640, "RightVector"%string);
  (8641, "DownRightVector"%string); (8642, "RightDownVector"%string); (8643, "LeftDownVector"%string);
  (8644, "RightArrowLeftArrow"%string); (8645, "UpArrowDownArrow"%string); (8646, "LeftArrowRightArrow"%string);
  (8651, "ReverseEquilibrium"%string); (8652, "Equilibrium"%string); (8656, "DoubleLeftArrow"%string);
  (8657, "DoubleUpArrow"%string); (8658, "DoubleRightArrow"%string); (8659, "DoubleDownArrow"%string);
  (8660, "DoubleLeftRightArrow"%string); (8661, "DoubleUpDownArrow"%string); (8676, "LeftArrowBar"%string);
  (8677, "RightArrowBar"%string); (8693, "DownArrowUpArrow"%string); (8704, "ForAll"%string);
  (8706, "PartialD"%string); (8707, "Exists"%string); (8708, "NotExists"%string);
  (8709, "EmptySet"%string); (8711, "Del"%string); (8712, "Element"%string);
  (8713, "NotElement"%string); (8715, "ReverseElement"%string); (8716, "NotReverseElement"%string);
  (8717, "SuchThat"%string); (8719, "Product"%string); (8720, "Coproduct"%string);
  (8721, "Sum"%string); (8722, "Minus"%string); (8723, "MinusPlus"%string);
  (8725, "DivisionSlash"%string); (8726, "Backslash"%string); (8728, "SmallCircle"%string);
  (8730, "Sqrt"%string); (8731, "CubeRoot"%string); (8733, "Proportional"%string);
  (8734, "Infinity"%string); (8735, "RightAngle"%string); (8736, "Angle"%string);
  (8737, "MeasuredAngle"%string); (8738, "SphericalAngle"%string); (8739, "Divides"%string);
  (8741, "DoubleVerticalBar"%string); (8742, "NotDoubleVerticalBar"%string); (8743, "And"%string);
  (8744, "Or"%string); (8747, "Integral"%string); (8750, "ContourIntegral"%string);
  (8751, "DoubleContourIntegral"%string); (8754, "ClockwiseContourIntegral"%string); (8755, "CounterClockwiseContourIntegral"%string);
  (8756, "Therefore"%string); (8757, "Because"%string); (8758, "Colon"%string);
  (8759, "Proportion"%string); (8764, "Tilde"%string); (8768, "VerticalTilde"%string);
  (8769, "NotTilde"%string); (8770, "EqualTilde"%string); (8771, "TildeEqual"%string);
  (8772, "NotTildeEqual"%string); (8773, "TildeFullEqual"%string); (8775, "NotTildeFullEqual"%string);
  (8776, "TildeTilde"%string); (8777, "NotTildeTilde"%string); (8781, "CupCap"%string);
  (8782, "HumpDownHump"%string); (8783, "HumpEqual"%string); (8784, "DotEqual"%string);
  (8800, "NotEqual"%string); (8801, "Congruent"%string); (8802, "NotCongruent"%string);
  (8804, "LessEqual"%string); (8805, "GreaterEqual"%string); (8806, "LessFullEqual"%string);
  (8807, "GreaterFullEqual"%string); (8808, "NotLessFullEqual"%string); (8809, "NotGreaterFullEqual"%string);
  (8810, "LessLess"%string); (8811, "GreaterGreater"%string); (8813, "NotCupCap"%string);
  (8814, "NotLess"%string); (8815, "NotGreater"%string); (8816, "NotLessEqual"%string);
  (8817, "NotGreaterEqual"%string); (8818, "LessTilde"%string); (8819, "GreaterTilde"%string);
  (8820, "NotLessTilde"%string); (8821, "NotGreaterTilde"%string); (8822, "LessGreater"%string);
  (8823, "GreaterLess"%string); (8824, "NotLessGreater"%string); (8825, "NotGreaterLess"%string);
  (8826, "Precedes"%string); (8827, "Succeeds"%string); (8828, "PrecedesSlantEqual"%string);
  (8829, "SucceedsSlantEqual"%string); (8830, "PrecedesTilde"%string); (8831, "SucceedsTilde"%string);
  (8832, "NotPrecedes"%string); (8833, "NotSucceeds"%string); (8834, "Subset"%string);
  (8835, "Superset"%string); (8836, "NotSubset"%string); (8837, "NotSuperset"%string);
  (8838, "SubsetEqual"%string); (8839, "SupersetEqual"%string); (8840, "NotSubsetEqual"%string);
  (8841, "NotSupersetEqual"%string); (8846, "UnionPlus"%string); (8847, "SquareSubset"%string);
  (8848, "SquareSuperset"%string); (8849, "SquareSubsetEqual"%string); (8850, "SquareSupersetEqual"%string);
  (8851, "SquareIntersection"%string); (8852, "SquareUnion"%string); (8853, "CirclePlus"%string);
  (8854, "CircleMinus"%string); (8855, "CircleTimes"%string); (8857, "CircleDot"%string);
  (8866, "RightTee"%string); (8867, "LeftTee"%string); (8868, "DownTee"%string);
  (8869, "UpTee"%string); (8872, "DoubleRightTee"%string); (8882, "LeftTriangle"%string);
  (8883, "RightTriangle"%string); (8884, "LeftTriangleEqual"%string); (8885, "RightTriangleEqual"%string);
  (8891, "Xor"%string); (8892, "Nand"%string); (8893, "Nor"%string);
  (8896, "Wedge"%string); (8897, "Vee"%string); (8898, "Intersection"%string);
  (8899, "Union"%string); (8900, "Diamond"%string); (8902, "Star"%string);
  (8922, "LessEqualGreater"%string); (8923, "GreaterEqualLess"%string); (8928, "NotPrecedesSlantEqual"%string);
  (8929, "NotSucceedsSlantEqual"%string); (8930, "NotSquareSubsetEqual"%string); (8931, "NotSquareSupersetEqual"%string);
  (8936, "NotPrecedesTilde"%string); (8937, "NotSucceedsTilde"%string); (8938, "NotLeftTriangle"%string);
  (8939, "NotRightTriangle"%string); (8940, "NotLeftTriangleEqual"%string); (8941, "NotRightTriangleEqual"%string);
  (8942, "VerticalEllipsis"%string); (8943, "CenterEllipsis"%string); (8944, "AscendingEllipsis"%string);
  (8945, "DescendingEllipsis"%string); (8960, "Diameter"%string); (8968, "LeftCeiling"%string);
  (8969, "RightCeiling"%string); (8970, "LeftFloor"%string); (8971, "RightFloor"%string);
  (8984, "CloverLeaf"%string); (8986, "WatchIcon"%string); (8994, "Cap"%string);
  (8995, "Cup"%string); (9001, "LeftAngleBracket"%string); (9002, "RightAngleBracket"%string);
  (9140, "OverBracket"%string); (9141, "UnderBracket"%string); (9251, "SpaceIndicator"%string);
  (9472, "HorizontalLine"%string); (9474, "VerticalLine"%string); (9632, "FilledSquare"%string);
  (9633, "EmptySquare"%string); (9642, "FilledVerySmallSquare"%string); (9643, "EmptyVerySmallSquare"%string);
  (9646, "FilledRectangle"%string); (9647, "EmptyRectangle"%string); (9650, "FilledUpTriangle"%string);
  (9651, "EmptyUpTriangle"%string); (9652, "UpPointer"%string); (9654, "FilledRightTriangle"%string);
  (9656, "RightPointer"%string); (9660, "FilledDownTriangle"%string); (9661, "EmptyDownTriangle"%string);
  (9662, "DownPointer"%string); (9664, "FilledLeftTriangle"%string); (9666, "LeftPointer"%string);
  (9670, "FilledDiamond"%string); (9671, "EmptyDiamond"%string); (9675, "EmptyCircle"%string);
  (9679, "FilledCircle"%string); (9702, "EmptySmallCircle"%string); (9723, "EmptySmallSquare"%string);
  (9724, "FilledSmallSquare"%string); (9733, "FivePointedStar"%string); (9737, "Sun"%string);
  (9745, "CheckmarkedBox"%string); (9746, "CheckedBox"%string); (9785, "SadSmiley"%string);
  (9786, "HappySmiley"%string); (9790, "Moon"%string); (9791, "Mercury"%string);
  (9792, "Venus"%string); (9794, "Mars"%string); (9795, "Jupiter"%string);
  (9796, "Saturn"%string); (9798, "Neptune"%string); (9799, "Pluto"%string);
  (9800, "AriesSign"%string); (9801, "TaurusSign"%string); (9802, "GeminiSign"%string);
  (9803, "CancerSign"%string); (9804, "LeoSign"%string); (9805, "VirgoSign"%string);
  (9806, "LibraSign"%string); (9807, "ScorpioSign"%string); (9808, "SagittariusSign"%string);
  (9809, "CapricornSign"%string); (9810, "AquariusSign"%string); (9811, "PiscesSign"%string);
  (9812, "WhiteKing"%string); (9813, "WhiteQueen"%string); (9814, "WhiteRook"%string);
  (9815, "WhiteBishop"%string); (9816, "WhiteKnight"%string); (9817, "WhitePawn"%string);
  (9818, "BlackKing"%string); (9819, "BlackQueen"%string); (9820, "BlackRook"%string);
  (9821, "BlackBishop"%string); (9822, "BlackKnight"%string); (9823, "BlackPawn"%string);
  (9824, "SpadeSuit"%string); (9825, "HeartSuit"%string); (9826, "DiamondSuit"%string);
  (9827, "ClubSuit"%string); (9833, "QuarterNote"%string); (9834, "EighthNote"%string);
  (9835, "BeamedEighthNote"%string); (9836, "BeamedSixteenthNote"%string); (9837, "Flat"%string);
  (9838, "Natural"%string); (9839, "Sharp"%string); (9954, "Uranus"%string);
  (10003, "Checkmark"%string); (10038, "SixPointedStar"%string); (10178, "Perpendicular"%string);
  (10229, "LongLeftArrow"%string); (10230, "LongRightArrow"%string); (10231, "LongLeftRightArrow"%string);
  (10232, "DoubleLongLeftArrow"%string); (10233, "DoubleLongRightArrow"%string); (10234, "DoubleLongLeftRightArrow"%string);
  (10514, "UpArrowBar"%string); (10515, "DownArrowBar"%string); (10574, "LeftRightVector"%string);
  (10575, "RightUpDownVector"%string); (10576, "DownLeftRightVector"%string); (10577, "LeftUpDownVector"%string);
  (10578, "LeftVectorBar"%string); (10579, "RightVectorBar"%string); (10580, "RightUpVectorBar"%string);
  (10581, "RightDownVectorBar"%string); (10582, "DownLeftVectorBar"%string); (10583, "DownRightVectorBar"%string);
  (10584, "LeftUpVectorBar"%string); (10585, "LeftDownVectorBar"%string); (10586, "LeftTeeVector"%string);
  (10587, "RightTeeVector"%string); (10588, "RightUpTeeVector"%string); (10589, "RightDownTeeVector"%string);
  (10590, "DownLeftTeeVector"%string); (10591, "DownRightTeeVector"%string); (10592, "LeftUpTeeVector"%string);
  (10593, "LeftDownTeeVector"%string); (10606, "UpEquilibrium"%string); (10607, "ReverseUpEquilibrium"%string);
  (10608, "RoundImplies"%string); (10703, "LeftTriangleBar"%string); (10704, "RightTriangleBar"%string);
  (10726, "Equivalent"%string); (10877, "LessSlantEqual"%string); (10878, "GreaterSlantEqual"%string);
  (10913, "NestedLessLess"%string); (10914, "NestedGreaterGreater"%string); (10927, "PrecedesEqual"%string);
  (10928, "SucceedsEqual"%string); (10980, "DoubleLeftTee"%string); (12288, "COMPATIBILITYKanjiSpace"%string);
  (12314, "LeftDoubleBracket"%string); (12315, "RightDoubleBracket"%string); (61715, "LeftAssociation"%string);
  (61716, "RightAssociation"%string); (61725, "Shah"%string); (61726, "WolframLanguageLogo"%string);
  (61727, "WolframLanguageLogoCircle"%string); (61728, "TwoWayRule"%string); (62289, "FreeformPrompt"%string);
  (62290, "WolframAlphaPrompt"%string); (62304, "InvisibleSpace"%string); (62305, "Piecewise"%string);
  (62336, "NegativeVeryThinSpace"%string); (62338, "NegativeThinSpace"%string); (62339, "NegativeMediumSpace"%string);
  (62340, "NegativeThickSpace"%string); (62366, "ImplicitPlus"%string); (62368, "Null"%string);
  (62370, "COMPATIBILITYNoBreak"%string); (62371, "IndentingNewLine"%string); (62372, "AutoPlaceholder"%string);
  (62376, "AutoLeftMatch"%string); (62377, "AutoRightMatch"%string); (62381, "AutoSpace"%string);
  (62382, "AutoOperand"%string); (62383, "SystemsModelDelay"%string); (62385, "Continuation"%string);
  (62386, "RoundSpaceIndicator"%string); (62387, "InvisiblePrefixScriptBase"%string); (62388, "InvisiblePostfixScriptBase"%string);
  (62392, "EntityStart"%string); (62393, "EntityEnd"%string); (62394, "SpanFromLeft"%string);
  (62395, "SpanFromAbove"%string); (62396, "SpanFromBoth"%string); (62397, "PageBreakAbove"%string);
  (62398, "PageBreakBelow"%string); (62399, "DiscretionaryPageBreakAbove"%string); (62406, "DiscretionaryPageBreakBelow"%string);
  (62407, "Transpose"%string); (62408, "Conjugate"%string); (62409, "ConjugateTranspose"%string);
  (62410, "StepperRight"%string); (62411, "StepperLeft"%string); (62412, "StepperUp"%string);
  (62413, "StepperDown"%string); (62414, "HermitianConjugate"%string); (62416, "VerticalBar"%string);
  (62417, "NotVerticalBar"%string); (62418, "Distributed"%string); (62419, "Conditioned"%string);
  (62420, "UndirectedEdge"%string); (62421, "DirectedEdge"%string); (62425, "ContinuedFractionK"%string);
  (62426, "TensorProduct"%string); (62427, "TensorWedge"%string); (62428, "ProbabilityPr"%string);
  (62429, "ExpectationE"%string); (62430, "PermutationProduct"%string); (62431, "Earth"%string);
  (62464, "NotEqualTilde"%string); (62465, "NotHumpEqual"%string); (62466, "NotHumpDownHump"%string);
  (62482, "NotLeftTriangleBar"%string); (62483, "NotRightTriangleBar"%string); (62498, "NotLessLess"%string);
  (62499, "NotNestedLessLess"%string); (62500, "NotLessSlantEqual"%string); (62503, "NotGreaterGreater"%string);
  (62504, "NotNestedGreaterGreater"%string); (62505, "NotGreaterSlantEqual"%string); (62507, "NotPrecedesEqual"%string);
  (62509, "NotSucceedsEqual"%string); (62510, "NotSquareSubset"%string); (62511, "NotSquareSuperset"%string);
  (62513, "Equal"%string); (62514, "VerticalSeparator"%string); (62516, "VectorGreater"%string);
  (62517, "VectorGreaterEqual"%string); (62518, "VectorLess"%string); (62519, "VectorLessEqual"%string);
  (62520, "Limit"%string); (62521, "MaxLimit"%string); (62522, "MinLimit"%string);
  (62624, "Cross"%string); (62625, "Function"%string); (62626, "Xnor"%string);
  (62627, "DiscreteShift"%string); (62628, "DifferenceDelta"%string); (62629, "DiscreteRatio"%string);
  (62750, "InlinePart"%string); (62751, "RuleDelayed"%string); (62752, "Square"%string);
  (62754, "Rule"%string); (62755, "Implies"%string); (62757, "ShortRightArrow"%string);
  (62758, "ShortLeftArrow"%string); (62759, "SelectionPlaceholder"%string); (62760, "Placeholder"%string);
  (62762, "ShortUpArrow"%string); (62763, "ShortDownArrow"%string); (62768, "Application"%string);
  (62979, "LeftBracketingBar"%string); (62980, "RightBracketingBar"%string); (62981, "LeftDoubleBracketingBar"%string);
  (62982, "RightDoubleBracketingBar"%string); (63154, "ScriptA"%string); (63155, "ScriptB"%string);
  (63156, "ScriptC"%string); (63157, "ScriptD"%string); (63159, "ScriptF"%string);
  (63161, "ScriptH"%string); (63162, "ScriptI"%string); (63163, "ScriptJ"%string);
  (63164, "ScriptK"%string); (63166, "ScriptM"%string); (63167, "ScriptN"%string);
  (63169, "ScriptP"%string); (63170, "ScriptQ"%string); (63171, "ScriptR"%string);
  (63172, "ScriptS"%string); (63173, "ScriptT"%string); (63174, "ScriptU"%string);
  (63175, "ScriptV"%string); (63176, "ScriptW"%string); (63177, "ScriptX"%string);
  (63178, "ScriptY"%string); (63179, "ScriptZ"%string); (63180, "GothicA"%string);
  (63181, "GothicB"%string); (63182, "GothicC"%string); (63183, "GothicD"%string);
  (63184, "GothicE"%string); (63185, "GothicF"%string); (63186, "GothicG"%string);
  (63187, "GothicH"%string); (63188, "GothicI"%string); (63189, "GothicJ"%string);
  (63190, "GothicK"%string); (63191, "GothicL"%string); (63192, "GothicM"%string);
  (63193, "GothicN"%string); (63194, "GothicO"%string); (63195, "GothicP"%string);
  (63196, "GothicQ"%string); (63197, "GothicR"%string); (63198, "GothicS"%string);
  (63199, "GothicT"%string); (63200, "GothicU"%string); (63201, "GothicV"%string);
  (63202, "GothicW"%string); (63203, "GothicX"%string); (63204, "GothicY"%string);
  (63205, "GothicZ"%string); (63206, "DoubleStruckA"%string); (63207, "DoubleStruckB"%string);
  (63208, "DoubleStruckC"%string); (63209, "DoubleStruckD"%string); (63210, "DoubleStruckE"%string);
  (63211, "DoubleStruckF"%string); (63212, "DoubleStruckG"%string); (63213, "DoubleStruckH"%string);
  (63214, "DoubleStruckI"%string); (63215, "DoubleStruckJ"%string); (63216, "DoubleStruckK"%string);
  (63217, "DoubleStruckL"%string); (63218, "DoubleStruckM"%string); (63219, "DoubleStruckN"%string);
  (63220, "DoubleStruckO"%string); (63221, "DoubleStruckP"%string); (63222, "DoubleStruckQ"%string);
  (63223, "DoubleStruckR"%string); (63224, "DoubleStruckS"%string); (63225, "DoubleStruckT"%string);
  (63226, "DoubleStruckU"%string); (63227, "DoubleStruckV"%string); (63228, "DoubleStruckW"%string);
  (63229, "DoubleStruckX"%string); (63230, "DoubleStruckY"%string); (63231, "DoubleStruckZ"%string);
  (63232, "DotlessJ"%string); (63264, "Wolf"%string); (63265, "FreakedSmiley"%string);
  (63266, "NeutralSmiley"%string); (63267, "LightBulb"%string); (63268, "NumberSign"%string);
  (63269, "WarningSign"%string); (63271, "Villa"%string); (63272, "Akuz"%string);
  (63273, "Andy"%string); (63274, "Spooky"%string); (63280, "ScriptDotlessI"%string);
  (63281, "ScriptDotlessJ"%string); (63305, "DoubledPi"%string); (63306, "DoubledGamma"%string);
  (63307, "CapitalDifferentialD"%string); (63308, "DifferentialD"%string); (63309, "ExponentialE"%string);
  (63310, "ImaginaryI"%string); (63311, "ImaginaryJ"%string); (63312, "FilledSmallCircle"%string);
  (63313, "DottedSquare"%string); (63314, "GraySquare"%string); (63315, "GrayCircle"%string);
  (63316, "LetterSpace"%string); (63317, "DownBreve"%string); (63318, "KernelIcon"%string);
  (63319, "MathematicaIcon"%string); (63320, "TripleDot"%string); (63327, "SystemEnterKey"%string);
  (63328, "AlignmentMarker"%string); (63329, "LeftSkeleton"%string); (63330, "RightSkeleton"%string);
  (63331, "ControlKey"%string); (63332, "AliasDelimiter"%string); (63333, "InvisibleComma"%string);
  (63334, "ReturnKey"%string); (63335, "ErrorIndicator"%string); (63336, "AliasIndicator"%string);
  (63337, "EscapeKey"%string); (63338, "CommandKey"%string); (63339, "LeftModified"%string);
  (63340, "RightModified"%string); (63341, "InvisibleApplication"%string); (63342, "DiscretionaryLineSeparator"%string);
  (63343, "DiscretionaryParagraphSeparator"%string); (63344, "ScriptCapitalA"%string); (63346, "ScriptCapitalC"%string);
  (63347, "ScriptCapitalD"%string); (63350, "ScriptCapitalG"%string); (63353, "ScriptCapitalJ"%string);
  (63354, "ScriptCapitalK"%string); (63357, "ScriptCapitalN"%string); (63358, "ScriptCapitalO"%string);
  (63359, "ScriptCapitalP"%string); (63360, "ScriptCapitalQ"%string); (63362, "ScriptCapitalS"%string);
  (63363, "ScriptCapitalT"%string); (63364, "ScriptCapitalU"%string); (63365, "ScriptCapitalV"%string);
  (63366, "ScriptCapitalW"%string); (63367, "ScriptCapitalX"%string); (63368, "ScriptCapitalY"%string);
  (63369, "ScriptCapitalZ"%string); (63370, "GothicCapitalA"%string); (63371, "GothicCapitalB"%string);
  (63373, "GothicCapitalD"%string); (63374, "GothicCapitalE"%string); (63375, "GothicCapitalF"%string);
  (63376, "GothicCapitalG"%string); (63379, "GothicCapitalJ"%string); (63380, "GothicCapitalK"%string);
  (63381, "GothicCapitalL"%string); (63382, "GothicCapitalM"%string); (63383, "GothicCapitalN"%string);
  (63384, "GothicCapitalO"%string); (63385, "GothicCapitalP"%string); (63386, "GothicCapitalQ"%string);
  (63388, "GothicCapitalS"%string); (63389, "GothicCapitalT"%string); (63390, "GothicCapitalU"%string);
  (63391, "GothicCapitalV"%string); (63392, "GothicCapitalW"%string); (63393, "GothicCapitalX"%string);
  (63394, "GothicCapitalY"%string); (63396, "DoubleStruckCapitalA"%string); (63397, "DoubleStruckCapitalB"%string);
  (63398, "DoubleStruckCapitalC"%string); (63399, "DoubleStruckCapitalD"%string); (63400, "DoubleStruckCapitalE"%string);
  (63401, "DoubleStruckCapitalF"%string); (63402, "DoubleStruckCapitalG"%string); (63403, "DoubleStruckCapitalH"%string);
  (63404, "DoubleStruckCapitalI"%string); (63405, "DoubleStruckCapitalJ"%string); (63406, "DoubleStruckCapitalK"%string);
  (63407, "DoubleStruckCapitalL"%string); (63408, "DoubleStruckCapitalM"%string); (63409, "DoubleStruckCapitalN"%string);
  (63410, "DoubleStruckCapitalO"%string); (63411, "DoubleStruckCapitalP"%string); (63412, "DoubleStruckCapitalQ"%string);
  (63413, "DoubleStruckCapitalR"%string); (63414, "DoubleStruckCapitalS"%string); (63415, "DoubleStruckCapitalT"%string);
  (63416, "DoubleStruckCapitalU"%string); (63417, "DoubleStruckCapitalV"%string); (63418, "DoubleStruckCapitalW"%string);
  (63419, "DoubleStruckCapitalX"%string); (63420, "DoubleStruckCapitalY"%string); (63421, "DoubleStruckCapitalZ"%string);
  (63422, "TabKey"%string); (63423, "SpaceKey"%string); (63440, "DeleteKey"%string);
  (63441, "AltKey"%string); (63442, "OptionKey"%string); (63443, "KeyBar"%string);
  (63444, "EnterKey"%string); (63445, "ShiftKey"%string); (63446, "Mod1Key"%string);
  (63447, "Mod2Key"%string); (63449, "LongEqual"%string); (63450, "ConstantC"%string);
  (63451, "DoubleStruckZero"%string); (63452, "DoubleStruckOne"%string); (63453, "DoubleStruckTwo"%string);
  (63454, "DoubleStruckThree"%string); (63455, "DoubleStruckFour"%string); (63456, "DoubleStruckFive"%string);
  (63457, "DoubleStruckSix"%string); (63458, "DoubleStruckSeven"%string); (63459, "DoubleStruckEight"%string);
  (63460, "DoubleStruckNine"%string); (63461, "GothicZero"%string); (63462, "GothicOne"%string);
  (63463, "GothicTwo"%string); (63464, "GothicThree"%string); (63465, "GothicFour"%string);
  (63466, "GothicFive"%string); (63467, "GothicSix"%string); (63468, "GothicSeven"%string);
  (63469, "GothicEight"%string); (63471, "GothicNine"%string); (63472, "ScriptZero"%string);
  (63473, "ScriptOne"%string); (63474, "ScriptTwo"%string); (63475, "ScriptThree"%string);
  (63476, "ScriptFour"%string); (63477, "ScriptFive"%string); (63478, "ScriptSix"%string);
  (63479, "ScriptSeven"%string); (63480, "ScriptEight"%string); (63481, "ScriptNine"%string);
  (63482, "FirstPage"%string); (63483, "LastPage"%string); (63484, "NumberComma"%string);
  (63488, "FormalA"%string); (63489, "FormalB"%string); (63490, "FormalC"%string);
  (63491, "FormalD"%string); (63492, "FormalE"%string); (63493, "FormalF"%string);
  (63494, "FormalG"%string); (63495, "FormalH"%string); (63496, "FormalI"%string);
  (63497, "FormalJ"%string); (63498, "FormalK"%string); (63499, "FormalL"%string);
  (63500, "FormalM"%string); (63501, "FormalN"%string); (63502, "FormalO"%string);
  (63503, "FormalP"%string); (63504, "FormalQ"%string); (63505, "FormalR"%string);
  (63506, "FormalS"%string); (63507, "FormalT"%string); (63508, "FormalU"%string);
  (63509, "FormalV"%string); (63510, "FormalW"%string); (63511, "FormalX"%string);
  (63512, "FormalY"%string); (63513, "FormalZ"%string); (63514, "FormalCapitalA"%string);
  (63515, "FormalCapitalB"%string); (63516, "FormalCapitalC"%string); (63517, "FormalCapitalD"%string);
  (63518, "FormalCapitalE"%string); (63519, "FormalCapitalF"%string); (63520, "FormalCapitalG"%string);
  (63521, "FormalCapitalH"%string); (63522, "FormalCapitalI"%string); (63523, "FormalCapitalJ"%string);
  (63524, "FormalCapitalK"%string); (63525, "FormalCapitalL"%string); (63526, "FormalCapitalM"%string);
  (63527, "FormalCapitalN"%string); (63528, "FormalCapitalO"%string); (63529, "FormalCapitalP"%string);
  (63530, "FormalCapitalQ"%string); (63531, "FormalCapitalR"%string); (63532, "FormalCapitalS"%string);
  (63533, "FormalCapitalT"%string); (63534, "FormalCapitalU"%string); (63535, "FormalCapitalV"%string);
  (63536, "FormalCapitalW"%string); (63537, "FormalCapitalX"%string); (63538, "FormalCapitalY"%string);
  (63539, "FormalCapitalZ"%string); (63540, "FormalCapitalAlpha"%string); (63541, "FormalCapitalBeta"%string);
  (63542, "FormalCapitalGamma"%string); (63543, "FormalCapitalDelta"%string); (63544, "FormalCapitalEpsilon"%string);
  (63545, "FormalCapitalZeta"%string); (63546, "FormalCapitalEta"%string); (63547, "FormalCapitalTheta"%string);
  (63548, "FormalCapitalIota"%string); (63549, "FormalCapitalKappa"%string); (63550, "FormalCapitalLambda"%string);
  (63551, "FormalCapitalMu"%string); (63552, "FormalCapitalNu"%string); (63553, "FormalCapitalXi"%string);
  (63554, "FormalCapitalOmicron"%string); (63555, "FormalCapitalPi"%string); (63556, "FormalCapitalRho"%string);
  (63558, "FormalCapitalSigma"%string); (63559, "FormalCapitalTau"%string); (63560, "FormalCapitalUpsilon"%string);
  (63561, "FormalCapitalPhi"%string); (63562, "FormalCapitalChi"%string); (63563, "FormalCapitalPsi"%string);
  (63564, "FormalCapitalOmega"%string); (63572, "FormalAlpha"%string); (63573, "FormalBeta"%string);
  (63574, "FormalGamma"%string); (63575, "FormalDelta"%string); (63576, "FormalCurlyEpsilon"%string);
  (63577, "FormalZeta"%string); (63578, "FormalEta"%string); (63579, "FormalTheta"%string);
  (63580, "FormalIota"%string); (63581, "FormalKappa"%string); (63582, "FormalLambda"%string);
  (63583, "FormalMu"%string); (63584, "FormalNu"%string); (63585, "FormalXi"%string);
  (63586, "FormalOmicron"%string); (63587, "FormalPi"%string); (63588, "FormalRho"%string);
  (63589, "FormalFinalSigma"%string); (63590, "FormalSigma"%string); (63591, "FormalTau"%string);
  (63592, "FormalUpsilon"%string); (63593, "FormalCurlyPhi"%string); (63594, "FormalChi"%string);
  (63595, "FormalPsi"%string); (63596, "FormalOmega"%string); (63604, "FormalCurlyTheta"%string);
  (63605, "FormalCurlyCapitalUpsilon"%string); (63608, "FormalPhi"%string); (63609, "FormalCurlyPi"%string);
  (63613, "FormalCapitalStigma"%string); (63614, "FormalStigma"%string); (63615, "FormalCapitalDigamma"%string);
  (63616, "FormalDigamma"%string); (63617, "FormalCapitalKoppa"%string); (63618, "FormalKoppa"%string);
  (63619, "FormalCapitalSampi"%string); (63620, "FormalSampi"%string); (63621, "FormalCurlyKappa"%string);
  (63622, "FormalCurlyRho"%string); (63626, "FormalEpsilon"%string); (64257, "FiLigature"%string);
  (64258, "FlLigature"%string); (65077, "OverParenthesis"%string); (65078, "UnderParenthesis"%string);
  (65079, "OverBrace"%string); (65080, "UnderBrace"%string); (65533, "UnknownGlyph"%string);
  (1024000, "FormalScriptA"%string); (1024001, "FormalScriptB"%string); (1024002, "FormalScriptC"%string);
  (1024003, "FormalScriptD"%string); (1024004, "FormalScriptE"%string); (1024005, "FormalScriptF"%string);
  (1024006, "FormalScriptG"%string); (1024007, "FormalScriptH"%string); (1024008, "FormalScriptI"%string);
  (1024009, "FormalScriptJ"%string); (1024010, "FormalScriptK"%string); (1024011, "FormalScriptL"%string);
  (1024012, "FormalScriptM"%string); (1024013, "FormalScriptN"%string); (1024014, "FormalScriptO"%string);
  (1024015, "FormalScriptP"%string); (1024016, "FormalScriptQ"%string); (1024017, "FormalScriptR"%string);
  (1024018, "FormalScriptS"%string); (1024019, "FormalScriptT"%string); (1024020, "FormalScriptU"%string);
  (1024021, "FormalScriptV"%string); (1024022, "FormalScriptW"%string); (1024023, "FormalScriptX"%string);
  (1024024, "FormalScriptY"%string); (1024025, "FormalScriptZ"%string); (1024026, "FormalScriptCapitalA"%string);
  (1024027, "FormalScriptCapitalB"%string); (1024028, "FormalScriptCapitalC"%string); (1024029, "FormalScriptCapitalD"%string);
  (1024030, "FormalScriptCapitalE"%string); (1024031, "FormalScriptCapitalF"%string); (1024032, "FormalScriptCapitalG"%string);
  (1024033, "FormalScriptCapitalH"%string); (1024034, "FormalScriptCapitalI"%string); (1024035, "FormalScriptCapitalJ"%string);
  (1024036, "FormalScriptCapitalK"%string); (1024037, "FormalScriptCapitalL"%string); (1024038, "FormalScriptCapitalM"%string);
  (1024039, "FormalScriptCapitalN"%string); (1024040, "FormalScriptCapitalO"%string); (1024041, "FormalScriptCapitalP"%string);
  (1024042, "FormalScriptCapitalQ"%string); (1024043, "FormalScriptCapitalR"%string); (1024044, "FormalScriptCapitalS"%string);
  (1024045, "FormalScriptCapitalT"%string); (1024046, "FormalScriptCapitalU"%string); (1024047, "FormalScriptCapitalV"%string);
  (1024048, "FormalScriptCapitalW"%string); (1024049, "FormalScriptCapitalX"%string); (1024050, "FormalScriptCapitalY"%string);
  (1024051, "FormalScriptCapitalZ"%string)
].

(** RAW_SET *)
Definition RAW_SET : list string := [
  "NewLine"%string; "RawAmpersand"%string; "RawAt"%string; "RawBackquote"%string;
  "RawBackslash"%string; "RawColon"%string; "RawComma"%string; "RawDash"%string;
  "RawDollar"%string; "RawDot"%string; "RawDoubleQuote"%string; "RawEqual"%string;
  "RawEscape"%string; "RawExclamation"%string; "RawGreater"%string; "RawLeftBrace"%string;
  "RawLeftBracket"%string; "RawLeftParenthesis"%string; "RawLess"%string; "RawNumberSign"%string;
  "RawPercent"%string; "RawPlus"%string; "RawQuestion"%string; "RawQuote"%string;
  "RawReturn"%string; "RawRightBrace"%string; "RawRightBracket"%string; "RawRightParenthesis"%string;
  "RawSemicolon"%string; "RawSlash"%string; "RawSpace"%string; "RawStar"%string;
  "RawTab"%string; "RawTilde"%string; "RawUnderscore"%string; "RawVerticalBar"%string;
  "RawWedge"%string
].

(** MB_NOT_STRAGE_LETTERLIKE_CODE_POINTS *)
Definition MB_NOT_STRANGE_LETTERLIKE : list Z := [
  176; 913; 914; 915; 916; 917; 918; 919; 920; 921; 922; 923;
  924; 925; 926; 927; 928; 929; 931; 932; 933; 934; 935; 936;
  937; 945; 946; 947; 948; 949; 950; 951; 952; 953; 954; 955;
  956; 957; 958; 959; 960; 961; 962; 963; 964; 965; 966; 967;
  968; 969; 977; 978; 981; 982; 986; 987; 988; 989; 990; 991;
  992; 993; 1008; 1009; 1013; 8224; 8242; 8243; 8458; 8459; 8460; 8463;
  8464; 8465; 8466; 8467; 8475; 8492; 8495; 8496; 8497; 8499; 8500; 8734;
  62383; 63154; 63155; 63156; 63157; 63159; 63161; 63162; 63163; 63164; 63166; 63167;
  63169; 63170; 63171; 63172; 63173; 63174; 63175; 63176; 63177; 63178; 63179; 63309;
  63310; 63311; 63344; 63346; 63347; 63350; 63353; 63354; 63357; 63358; 63359; 63360;
  63362; 63363; 63364; 63365; 63366; 63367; 63368; 63369; 63488; 63489; 63490; 63491;
  63492; 63493; 63494; 63495; 63496; 63497; 63498; 63499; 63500; 63501; 63502; 63503;
  63504; 63505; 63506; 63507; 63508; 63509; 63510; 63511; 63512; 63513; 63514; 63515;
  63516; 63517; 63518; 63519; 63520; 63521; 63522; 63523; 63524; 63525; 63526; 63527;
  63528; 63529; 63530; 63531; 63532; 63533; 63534; 63535; 63536; 63537; 63538; 63539;
  63540; 63541; 63542; 63543; 63544; 63545; 63546; 63547; 63548; 63549; 63550; 63551;
  63552; 63553; 63554; 63555; 63556; 63558; 63559; 63560; 63561; 63562; 63563; 63564;
  63572; 63573; 63574; 63575; 63576; 63577; 63578; 63579; 63580; 63581; 63582; 63583;
  63584; 63585; 63586; 63587; 63588; 63589; 63590; 63591; 63592; 63593; 63594; 63595;
  63596; 63604; 63605; 63608; 63609; 63613; 63614; 63615; 63616; 63617; 63618; 63619;
  63620; 63621; 63622; 63626; 1024000; 1024001; 1024002; 1024003; 1024004; 1024005; 1024006; 1024007;
  1024008; 1024009; 1024010; 1024011; 1024012; 1024013; 1024014; 1024015; 1024016; 1024017; 1024018; 1024019;
  1024020; 1024021; 1024022; 1024023; 1024024; 1024025; 1024026; 1024027; 1024028; 1024029; 1024030; 1024031;
  1024032; 1024033; 1024034; 1024035; 1024036; 1024037; 1024038; 1024039; 1024040; 1024041; 1024042; 1024043;
  1024044; 1024045; 1024046; 1024047; 1024048; 1024049; 1024050; 1024051
].

(** MB_PUNCTUATION_CODE_POINTS *)
Definition MB_PUNCTUATION : list Z := [
  172; 177; 183; 215; 247; 8216; 8217; 8220; 8221; 8290; 8592; 8593;
  8594; 8595; 8596; 8597; 8598; 8599; 8600; 8601; 8612; 8613; 8614; 8615;
  8636; 8637; 8638; 8639; 8640; 8641; 8642; 8643; 8644; 8645; 8646; 8651;
  8652; 8656; 8657; 8658; 8659; 8660; 8661; 8676; 8677; 8693; 8704; 8706;
  8707; 8708; 8711; 8712; 8713; 8715; 8716; 8717; 8719; 8720; 8721; 8722;
  8723; 8725; 8726; 8728; 8730; 8731; 8733; 8739; 8741; 8742; 8743; 8744;
  8747; 8750; 8751; 8754; 8755; 8756; 8757; 8758; 8759; 8764; 8768; 8769;
  8770; 8771; 8772; 8773; 8775; 8776; 8777; 8781; 8782; 8783; 8784; 8800;
  8801; 8802; 8804; 8805; 8806; 8807; 8808; 8809; 8810; 8811; 8813; 8814;
  8815; 8816; 8817; 8818; 8819; 8820; 8821; 8822; 8823; 8824; 8825; 8826;
  8827; 8828; 8829; 8830; 8831; 8832; 8833; 8834; 8835; 8836; 8837; 8838;
  8839; 8840; 8841; 8846; 8847; 8848; 8849; 8850; 8851; 8852; 8853; 8854;
  8855; 8857; 8866; 8867; 8868; 8869; 8872; 8882; 8883; 8884; 8885; 8891;
  8892; 8893; 8896; 8897; 8898; 8899; 8900; 8902; 8922; 8923; 8928; 8929;
  8930; 8931; 8936; 8937; 8938; 8939; 8940; 8941; 8968; 8969; 8970; 8971;
  8994; 8995; 9001; 9002; 10178; 10229; 10230; 10231; 10232; 10233; 10234; 10514;
  10515; 10574; 10575; 10576; 10577; 10578; 10579; 10580; 10581; 10582; 10583; 10584;
  10585; 10586; 10587; 10588; 10589; 10590; 10591; 10592; 10593; 10606; 10607; 10608;
  10703; 10704; 10726; 10877; 10878; 10913; 10914; 10927; 10928; 10980; 12314; 12315;
  61715; 61716; 61728; 62305; 62366; 62376; 62377; 62387; 62388; 62407; 62408; 62409;
  62414; 62416; 62417; 62418; 62419; 62420; 62421; 62425; 62426; 62427; 62428; 62429;
  62430; 62464; 62465; 62466; 62482; 62483; 62498; 62499; 62500; 62503; 62504; 62505;
  62507; 62509; 62510; 62511; 62513; 62514; 62516; 62517; 62518; 62519; 62520; 62521;
  62522; 62624; 62625; 62626; 62627; 62628; 62629; 62751; 62752; 62754; 62755; 62757;
  62758; 62762; 62763; 62768; 62979; 62980; 62981; 62982; 63307; 63308; 63333; 63341;
  63449
].

(** MB_WHITESPACE_CODE_POINTS *)
Definition MB_WHITESPACE : list Z := [
  160; 8197; 8201; 8202; 8287; 8288; 9251; 62304; 62336; 62338; 62339; 62340;
  62381; 62385; 62386; 62397; 62398; 62399; 62406; 63328
].

(** MB_NEWLINE_CODE_POINTS *)
Definition MB_NEWLINE : list Z := [
  (-13); 8232; 8233; 62371; 63342; 63343
].

(** MB_UNINTERPRETABLE_CODE_POINTS *)
Definition MB_UNINTERPRETABLE : list Z := [
  8259; 63329; 63330; 63335
].

(** fn LongNameCodePointToOperator: match arms in order; default is panic!("Need to add operator") *)
Definition LONGNAME_OPERATOR : list (Z * Z) := [
  (172, TK_LongName_Not); (177, TK_LongName_PlusMinus); (183, TK_LongName_CenterDot);
  (215, TK_LongName_Times); (247, TK_LongName_Divide); (8216, TK_LongName_OpenCurlyQuote);
  (8217, TK_LongName_CloseCurlyQuote); (8220, TK_LongName_OpenCurlyDoubleQuote); (8221, TK_LongName_CloseCurlyDoubleQuote);
  (8290, TK_LongName_InvisibleTimes); (8592, TK_LongName_LeftArrow); (8593, TK_LongName_UpArrow);
  (8594, TK_LongName_RightArrow); (8595, TK_LongName_DownArrow); (8596, TK_LongName_LeftRightArrow);
  (8597, TK_LongName_UpDownArrow); (8598, TK_LongName_UpperLeftArrow); (8599, TK_LongName_UpperRightArrow);
  (8600, TK_LongName_LowerRightArrow); (8601, TK_LongName_LowerLeftArrow); (8612, TK_LongName_LeftTeeArrow);
  (8613, TK_LongName_UpTeeArrow); (8614, TK_LongName_RightTeeArrow); (8615, TK_LongName_DownTeeArrow);
  (8636, TK_LongName_LeftVector); (8637, TK_LongName_DownLeftVector); (8638, TK_LongName_RightUpVector);
  (8639, TK_LongName_LeftUpVector); (8640, TK_LongName_RightVector); (8641, TK_LongName_DownRightVector);
  (8642, TK_LongName_RightDownVector); (8643, TK_LongName_LeftDownVector); (8644, TK_LongName_RightArrowLeftArrow);
  (8645, TK_LongName_UpArrowDownArrow); (8646, TK_LongName_LeftArrowRightArrow); (8651, TK_LongName_ReverseEquilibrium);
  (8652, TK_LongName_Equilibrium); (8656, TK_LongName_DoubleLeftArrow); (8657, TK_LongName_DoubleUpArrow);
  (8658, TK_LongName_DoubleRightArrow); (8659, TK_LongName_DoubleDownArrow); (8660, TK_LongName_DoubleLeftRightArrow);
  (8661, TK_LongName_DoubleUpDownArrow); (8676, TK_LongName_LeftArrowBar); (8677, TK_LongName_RightArrowBar);
  (8693, TK_LongName_DownArrowUpArrow); (8704, TK_LongName_ForAll); (8706, TK_LongName_PartialD);
  (8707, TK_LongName_Exists); (8708, TK_LongName_NotExists); (8711, TK_LongName_Del);
  (8712, TK_LongName_Element); (8713, TK_LongName_NotElement); (8715, TK_LongName_ReverseElement);
  (8716, TK_LongName_NotReverseElement); (8717, TK_LongName_SuchThat); (8719, TK_LongName_Product);
  (8720, TK_LongName_Coproduct); (8721, TK_LongName_Sum); (8722, TK_LongName_Minus);
  (8723, TK_LongName_MinusPlus); (8725, TK_LongName_DivisionSlash); (8726, TK_LongName_Backslash);
  (8728, TK_LongName_SmallCircle); (8730, TK_LongName_Sqrt); (8731, TK_LongName_CubeRoot);
  (8733, TK_LongName_Proportional); (8739, TK_LongName_Divides); (8741, TK_LongName_DoubleVerticalBar);
  (8742, TK_LongName_NotDoubleVerticalBar); (8743, TK_LongName_And); (8744, TK_LongName_Or);
  (8747, TK_LongName_Integral); (8750, TK_LongName_ContourIntegral); (8751, TK_LongName_DoubleContourIntegral);
  (8754, TK_LongName_ClockwiseContourIntegral); (8755, TK_LongName_CounterClockwiseContourIntegral); (8756, TK_LongName_Therefore);
  (8757, TK_LongName_Because); (8758, TK_LongName_Colon); (8759, TK_LongName_Proportion);
  (8764, TK_LongName_Tilde); (8768, TK_LongName_VerticalTilde); (8769, TK_LongName_NotTilde);
  (8770, TK_LongName_EqualTilde); (8771, TK_LongName_TildeEqual); (8772, TK_LongName_NotTildeEqual);
  (8773, TK_LongName_TildeFullEqual); (8775, TK_LongName_NotTildeFullEqual); (8776, TK_LongName_TildeTilde);
  (8777, TK_LongName_NotTildeTilde); (8781, TK_LongName_CupCap); (8782, TK_LongName_HumpDownHump);
  (8783, TK_LongName_HumpEqual); (8784, TK_LongName_DotEqual); (8800, TK_LongName_NotEqual);
  (8801, TK_LongName_Congruent); (8802, TK_LongName_NotCongruent); (8804, TK_LongName_LessEqual);
  (8805, TK_LongName_GreaterEqual); (8806, TK_LongName_LessFullEqual); (8807, TK_LongName_GreaterFullEqual);
  (8808, TK_LongName_NotLessFullEqual); (8809, TK_LongName_NotGreaterFullEqual); (8810, TK_LongName_LessLess);
  (8811, TK_LongName_GreaterGreater); (8813, TK_LongName_NotCupCap); (8814, TK_LongName_NotLess);
  (8815, TK_LongName_NotGreater); (8816, TK_LongName_NotLessEqual); (8817, TK_LongName_NotGreaterEqual);
  (8818, TK_LongName_LessTilde); (8819, TK_LongName_GreaterTilde); (8820, TK_LongName_NotLessTilde);
  (8821, TK_LongName_NotGreaterTilde); (8822, TK_LongName_LessGreater); (8823, TK_LongName_GreaterLess);
  (8824, TK_LongName_NotLessGreater); (8825, TK_LongName_NotGreaterLess); (8826, TK_LongName_Precedes);
  (8827, TK_LongName_Succeeds); (8828, TK_LongName_PrecedesSlantEqual); (8829, TK_LongName_SucceedsSlantEqual);
  (8830, TK_LongName_PrecedesTilde); (8831, TK_LongName_SucceedsTilde); (8832, TK_LongName_NotPrecedes);
  (8833, TK_LongName_NotSucceeds); (8834, TK_LongName_Subset); (8835, TK_LongName_Superset);
  (8836, TK_LongName_NotSubset); (8837, TK_LongName_NotSuperset); (8838, TK_LongName_SubsetEqual);
  (8839, TK_LongName_SupersetEqual); (8840, TK_LongName_NotSubsetEqual); (8841, TK_LongName_NotSupersetEqual);
  (8846, TK_LongName_UnionPlus); (8847, TK_LongName_SquareSubset); (8848, TK_LongName_SquareSuperset);
  (8849, TK_LongName_SquareSubsetEqual); (8850, TK_LongName_SquareSupersetEqual); (8851, TK_LongName_SquareIntersection);
  (8852, TK_LongName_SquareUnion); (8853, TK_LongName_CirclePlus); (8854, TK_LongName_CircleMinus);
  (8855, TK_LongName_CircleTimes); (8857, TK_LongName_CircleDot); (8866, TK_LongName_RightTee);
  (8867, TK_LongName_LeftTee); (8868, TK_LongName_DownTee); (8869, TK_LongName_UpTee);
  (8872, TK_LongName_DoubleRightTee); (8882, TK_LongName_LeftTriangle); (8883, TK_LongName_RightTriangle);
  (8884, TK_LongName_LeftTriangleEqual); (8885, TK_LongName_RightTriangleEqual); (8891, TK_LongName_Xor);
  (8892, TK_LongName_Nand); (8893, TK_LongName_Nor); (8896, TK_LongName_Wedge);
  (8897, TK_LongName_Vee); (8898, TK_LongName_Intersection); (8899, TK_LongName_Union);
  (8900, TK_LongName_Diamond); (8902, TK_LongName_Star); (8922, TK_LongName_LessEqualGreater);
  (8923, TK_LongName_GreaterEqualLess); (8928, TK_LongName_NotPrecedesSlantEqual); (8929, TK_LongName_NotSucceedsSlantEqual);
  (8930, TK_LongName_NotSquareSubsetEqual); (8931, TK_LongName_NotSquareSupersetEqual); (8936, TK_LongName_NotPrecedesTilde);
  (8937, TK_LongName_NotSucceedsTilde); (8938, TK_LongName_NotLeftTriangle); (8939, TK_LongName_NotRightTriangle);
  (8940, TK_LongName_NotLeftTriangleEqual); (8941, TK_LongName_NotRightTriangleEqual); (8968, TK_LongName_LeftCeiling);
  (8969, TK_LongName_RightCeiling); (8970, TK_LongName_LeftFloor); (8971, TK_LongName_RightFloor);
  (8994, TK_LongName_Cap); (8995, TK_LongName_Cup); (9001, TK_LongName_LeftAngleBracket);
  (9002, TK_LongName_RightAngleBracket); (10178, TK_LongName_Perpendicular); (10229, TK_LongName_LongLeftArrow);
  (10230, TK_LongName_LongRightArrow); (10231, TK_LongName_LongLeftRightArrow); (10232, TK_LongName_DoubleLongLeftArrow);
  (10233, TK_LongName_DoubleLongRightArrow); (10234, TK_LongName_DoubleLongLeftRightArrow); (10514, TK_LongName_UpArrowBar);
  (10515, TK_LongName_DownArrowBar); (10574, TK_LongName_LeftRightVector); (10575, TK_LongName_RightUpDownVector);
  (10576, TK_LongName_DownLeftRightVector); (10577, TK_LongName_LeftUpDownVector); (10578, TK_LongName_LeftVectorBar);
  (10579, TK_LongName_RightVectorBar); (10580, TK_LongName_RightUpVectorBar); (10581, TK_LongName_RightDownVectorBar);
  (10582, TK_LongName_DownLeftVectorBar); (10583, TK_LongName_DownRightVectorBar); (10584, TK_LongName_LeftUpVectorBar);
  (10585, TK_LongName_LeftDownVectorBar); (10586, TK_LongName_LeftTeeVector); (10587, TK_LongName_RightTeeVector);
  (10588, TK_LongName_RightUpTeeVector); (10589, TK_LongName_RightDownTeeVector); (10590, TK_LongName_DownLeftTeeVector);
  (10591, TK_LongName_DownRightTeeVector); (10592, TK_LongName_LeftUpTeeVector); (10593, TK_LongName_LeftDownTeeVector);
  (10606, TK_LongName_UpEquilibrium); (10607, TK_LongName_ReverseUpEquilibrium); (10608, TK_LongName_RoundImplies);
  (10703, TK_LongName_LeftTriangleBar); (10704, TK_LongName_RightTriangleBar); (10726, TK_LongName_Equivalent);
  (10877, TK_LongName_LessSlantEqual); (10878, TK_LongName_GreaterSlantEqual); (10913, TK_LongName_NestedLessLess);
  (10914, TK_LongName_NestedGreaterGreater); (10927, TK_LongName_PrecedesEqual); (10928, TK_LongName_SucceedsEqual);
  (10980, TK_LongName_DoubleLeftTee); (12314, TK_LongName_LeftDoubleBracket); (12315, TK_LongName_RightDoubleBracket);
  (61715, TK_LongName_LeftAssociation); (61716, TK_LongName_RightAssociation); (61728, TK_LongName_TwoWayRule);
  (62305, TK_LongName_Piecewise); (62366, TK_LongName_ImplicitPlus); (62376, TK_LongName_AutoLeftMatch);
  (62377, TK_LongName_AutoRightMatch); (62387, TK_LongName_InvisiblePrefixScriptBase); (62388, TK_LongName_InvisiblePostfixScriptBase);
  (62407, TK_LongName_Transpose); (62408, TK_LongName_Conjugate); (62409, TK_LongName_ConjugateTranspose);
  (62414, TK_LongName_HermitianConjugate); (62416, TK_LongName_VerticalBar); (62417, TK_LongName_NotVerticalBar);
  (62418, TK_LongName_Distributed); (62419, TK_LongName_Conditioned); (62420, TK_LongName_UndirectedEdge);
  (62421, TK_LongName_DirectedEdge); (62425, TK_LongName_ContinuedFractionK); (62426, TK_LongName_TensorProduct);
  (62427, TK_LongName_TensorWedge); (62428, TK_LongName_ProbabilityPr); (62429, TK_LongName_ExpectationE);
  (62430, TK_LongName_PermutationProduct); (62464, TK_LongName_NotEqualTilde); (62465, TK_LongName_NotHumpEqual);
  (62466, TK_LongName_NotHumpDownHump); (62482, TK_LongName_NotLeftTriangleBar); (62483, TK_LongName_NotRightTriangleBar);
  (62498, TK_LongName_NotLessLess); (62499, TK_LongName_NotNestedLessLess); (62500, TK_LongName_NotLessSlantEqual);
  (62503, TK_LongName_NotGreaterGreater); (62504, TK_LongName_NotNestedGreaterGreater); (62505, TK_LongName_NotGreaterSlantEqual);
  (62507, TK_LongName_NotPrecedesEqual); (62509, TK_LongName_NotSucceedsEqual); (62510, TK_LongName_NotSquareSubset);
  (62511, TK_LongName_NotSquareSuperset); (62513, TK_LongName_Equal); (62514, TK_LongName_VerticalSeparator);
  (62516, TK_LongName_VectorGreater); (62517, TK_LongName_VectorGreaterEqual); (62518, TK_LongName_VectorLess);
  (62519, TK_LongName_VectorLessEqual); (62520, TK_LongName_Limit); (62521, TK_LongName_MaxLimit);
  (62522, TK_LongName_MinLimit); (62624, TK_LongName_Cross); (62625, TK_LongName_Function);
  (62626, TK_LongName_Xnor); (62627, TK_LongName_DiscreteShift); (62628, TK_LongName_DifferenceDelta);
  (62629, TK_LongName_DiscreteRatio); (62751, TK_LongName_RuleDelayed); (62752, TK_LongName_Square);
  (62754, TK_LongName_Rule); (62755, TK_LongName_Implies); (62757, TK_LongName_ShortRightArrow);
  (62758, TK_LongName_ShortLeftArrow); (62762, TK_LongName_ShortUpArrow); (62763, TK_LongName_ShortDownArrow);
  (62768, TK_LongName_Application); (62979, TK_LongName_LeftBracketingBar); (62980, TK_LongName_RightBracketingBar);
  (62981, TK_LongName_LeftDoubleBracketingBar); (62982, TK_LongName_RightDoubleBracketingBar); (63307, TK_LongName_CapitalDifferentialD);
  (63308, TK_LongName_DifferentialD); (63333, TK_LongName_InvisibleComma); (63341, TK_LongName_InvisibleApplication);
  (63449, TK_LongName_LongEqual)
].
