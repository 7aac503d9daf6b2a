(** The named character references: crates/gosub_html5/src/tokenizer/replacement_tables.rs:79-2312
    [TOKEN_NAMED_CHARS], in file order, generated from the source text. *)
From Verif Require Import Text.

(** replacement_tables.rs:79-2312 *)
Definition named_chars : list (str * str) := [
  (txt "AElig;", [198]%N);
  (txt "AMP;", [38]%N);
  (txt "Aacute;", [193]%N);
  (txt "Abreve;", [258]%N);
  (txt "Acirc;", [194]%N);
  (txt "Acy;", [1040]%N);
  (txt "Afr;", [120068]%N);
  (txt "Agrave;", [192]%N);
  (txt "Alpha;", [913]%N);
  (txt "Amacr;", [256]%N);
  (txt "And;", [10835]%N);
  (txt "Aogon;", [260]%N);
  (txt "Aopf;", [120120]%N);
  (txt "ApplyFunction;", [8289]%N);
  (txt "Aring;", [197]%N);
  (txt "Ascr;", [119964]%N);
  (txt "Assign;", [8788]%N);
  (txt "Atilde;", [195]%N);
  (txt "Auml;", [196]%N);
  (txt "Backslash;", [8726]%N);
  (txt "Barv;", [10983]%N);
  (txt "Barwed;", [8966]%N);
  (txt "Bcy;", [1041]%N);
  (txt "Because;", [8757]%N);
  (txt "Bernoullis;", [8492]%N);
  (txt "Beta;", [914]%N);
  (txt "Bfr;", [120069]%N);
  (txt "Bopf;", [120121]%N);
  (txt "Breve;", [728]%N);
  (txt "Bscr;", [8492]%N);
  (txt "Bumpeq;", [8782]%N);
  (txt "CHcy;", [1063]%N);
  (txt "COPY;", [169]%N);
  (txt "Cacute;", [262]%N);
  (txt "Cap;", [8914]%N);
  (txt "CapitalDifferentialD;", [8517]%N);
  (txt "Cayleys;", [8493]%N);
  (txt "Ccaron;", [268]%N);
  (txt "Ccedil;", [199]%N);
  (txt "Ccirc;", [264]%N);
  (txt "Cconint;", [8752]%N);
  (txt "Cdot;", [266]%N);
  (txt "Cedilla;", [184]%N);
  (txt "CenterDot;", [183]%N);
  (txt "Cfr;", [8493]%N);
  (txt "Chi;", [935]%N);
  (txt "CircleDot;", [8857]%N);
  (txt "CircleMinus;", [8854]%N);
  (txt "CirclePlus;", [8853]%N);
  (txt "CircleTimes;", [8855]%N);
  (txt "ClockwiseContourIntegral;", [8754]%N);
  (txt "CloseCurlyDoubleQuote;", [8221]%N);
  (txt "CloseCurlyQuote;", [8217]%N);
  (txt "Colon;", [8759]%N);
  (txt "Colone;", [10868]%N);
  (txt "Congruent;", [8801]%N);
  (txt "Conint;", [8751]%N);
  (txt "ContourIntegral;", [8750]%N);
  (txt "Copf;", [8450]%N);
  (txt "Coproduct;", [8720]%N);
  (txt "CounterClockwiseContourIntegral;", [8755]%N);
  (txt "Cross;", [10799]%N);
  (txt "Cscr;", [119966]%N);
  (txt "Cup;", [8915]%N);
  (txt "CupCap;", [8781]%N);
  (txt "DD;", [8517]%N);
  (txt "DDotrahd;", [10513]%N);
  (txt "DJcy;", [1026]%N);
  (txt "DScy;", [1029]%N);
  (txt "DZcy;", [1039]%N);
  (txt "Dagger;", [8225]%N);
  (txt "Darr;", [8609]%N);
  (txt "Dashv;", [10980]%N);
  (txt "Dcaron;", [270]%N);
  (txt "Dcy;", [1044]%N);
  (txt "Del;", [8711]%N);
  (txt "Delta;", [916]%N);
  (txt "Dfr;", [120071]%N);
  (txt "DiacriticalAcute;", [180]%N);
  (txt "DiacriticalDot;", [729]%N);
  (txt "DiacriticalDoubleAcute;", [733]%N);
  (txt "DiacriticalGrave;", [96]%N);
  (txt "DiacriticalTilde;", [732]%N);
  (txt "Diamond;", [8900]%N);
  (txt "DifferentialD;", [8518]%N);
  (txt "Dopf;", [120123]%N);
  (txt "Dot;", [168]%N);
  (txt "DotDot;", [8412]%N);
  (txt "DotEqual;", [8784]%N);
  (txt "DoubleContourIntegral;", [8751]%N);
  (txt "DoubleDot;", [168]%N);
  (txt "DoubleDownArrow;", [8659]%N);
  (txt "DoubleLeftArrow;", [8656]%N);
  (txt "DoubleLeftRightArrow;", [8660]%N);
  (txt "DoubleLeftTee;", [10980]%N);
  (txt "DoubleLongLeftArrow;", [10232]%N);
  (txt "DoubleLongLeftRightArrow;", [10234]%N);
  (txt "DoubleLongRightArrow;", [10233]%N);
  (txt "DoubleRightArrow;", [8658]%N);
  (txt "DoubleRightTee;", [8872]%N);
  (txt "DoubleUpArrow;", [8657]%N);
  (txt "DoubleUpDownArrow;", [8661]%N);
  (txt "DoubleVerticalBar;", [8741]%N);
  (txt "DownArrow;", [8595]%N);
  (txt "DownArrowBar;", [10515]%N);
  (txt "DownArrowUpArrow;", [8693]%N);
  (txt "DownBreve;", [785]%N);
  (txt "DownLeftRightVector;", [10576]%N);
  (txt "DownLeftTeeVector;", [10590]%N);
  (txt "DownLeftVector;", [8637]%N);
  (txt "DownLeftVectorBar;", [10582]%N);
  (txt "DownRightTeeVector;", [10591]%N);
  (txt "DownRightVector;", [8641]%N);
  (txt "DownRightVectorBar;", [10583]%N);
  (txt "DownTee;", [8868]%N);
  (txt "DownTeeArrow;", [8615]%N);
  (txt "Downarrow;", [8659]%N);
  (txt "Dscr;", [119967]%N);
  (txt "Dstrok;", [272]%N);
  (txt "ENG;", [330]%N);
  (txt "ETH;", [208]%N);
  (txt "Eacute;", [201]%N);
  (txt "Ecaron;", [282]%N);
  (txt "Ecirc;", [202]%N);
  (txt "Ecy;", [1069]%N);
  (txt "Edot;", [278]%N);
  (txt "Efr;", [120072]%N);
  (txt "Egrave;", [200]%N);
  (txt "Element;", [8712]%N);
  (txt "Emacr;", [274]%N);
  (txt "EmptySmallSquare;", [9723]%N);
  (txt "EmptyVerySmallSquare;", [9643]%N);
  (txt "Eogon;", [280]%N);
  (txt "Eopf;", [120124]%N);
  (txt "Epsilon;", [917]%N);
  (txt "Equal;", [10869]%N);
  (txt "EqualTilde;", [8770]%N);
  (txt "Equilibrium;", [8652]%N);
  (txt "Escr;", [8496]%N);
  (txt "Esim;", [10867]%N);
  (txt "Eta;", [919]%N);
  (txt "Euml;", [203]%N);
  (txt "Exists;", [8707]%N);
  (txt "ExponentialE;", [8519]%N);
  (txt "Fcy;", [1060]%N);
  (txt "Ffr;", [120073]%N);
  (txt "FilledSmallSquare;", [9724]%N);
  (txt "FilledVerySmallSquare;", [9642]%N);
  (txt "Fopf;", [120125]%N);
  (txt "ForAll;", [8704]%N);
  (txt "Fouriertrf;", [8497]%N);
  (txt "Fscr;", [8497]%N);
  (txt "GJcy;", [1027]%N);
  (txt "GT;", [62]%N);
  (txt "Gamma;", [915]%N);
  (txt "Gammad;", [988]%N);
  (txt "Gbreve;", [286]%N);
  (txt "Gcedil;", [290]%N);
  (txt "Gcirc;", [284]%N);
  (txt "Gcy;", [1043]%N);
  (txt "Gdot;", [288]%N);
  (txt "Gfr;", [120074]%N);
  (txt "Gg;", [8921]%N);
  (txt "Gopf;", [120126]%N);
  (txt "GreaterEqual;", [8805]%N);
  (txt "GreaterEqualLess;", [8923]%N);
  (txt "GreaterFullEqual;", [8807]%N);
  (txt "GreaterGreater;", [10914]%N);
  (txt "GreaterLess;", [8823]%N);
  (txt "GreaterSlantEqual;", [10878]%N);
  (txt "GreaterTilde;", [8819]%N);
  (txt "Gscr;", [119970]%N);
  (txt "Gt;", [8811]%N);
  (txt "HARDcy;", [1066]%N);
  (txt "Hacek;", [711]%N);
  (txt "Hat;", [94]%N);
  (txt "Hcirc;", [292]%N);
  (txt "Hfr;", [8460]%N);
  (txt "HilbertSpace;", [8459]%N);
  (txt "Hopf;", [8461]%N);
  (txt "HorizontalLine;", [9472]%N);
  (txt "Hscr;", [8459]%N);
  (txt "Hstrok;", [294]%N);
  (txt "HumpDownHump;", [8782]%N);
  (txt "HumpEqual;", [8783]%N);
  (txt "IEcy;", [1045]%N);
  (txt "IJlig;", [306]%N);
  (txt "IOcy;", [1025]%N);
  (txt "Iacute;", [205]%N);
  (txt "Icirc;", [206]%N);
  (txt "Icy;", [1048]%N);
  (txt "Idot;", [304]%N);
  (txt "Ifr;", [8465]%N);
  (txt "Igrave;", [204]%N);
  (txt "Im;", [8465]%N);
  (txt "Imacr;", [298]%N);
  (txt "ImaginaryI;", [8520]%N);
  (txt "Implies;", [8658]%N);
  (txt "Int;", [8748]%N);
  (txt "Integral;", [8747]%N);
  (txt "Intersection;", [8898]%N);
  (txt "InvisibleComma;", [8291]%N);
  (txt "InvisibleTimes;", [8290]%N);
  (txt "Iogon;", [302]%N);
  (txt "Iopf;", [120128]%N);
  (txt "Iota;", [921]%N);
  (txt "Iscr;", [8464]%N);
  (txt "Itilde;", [296]%N);
  (txt "Iukcy;", [1030]%N);
  (txt "Iuml;", [207]%N);
  (txt "Jcirc;", [308]%N);
  (txt "Jcy;", [1049]%N);
  (txt "Jfr;", [120077]%N);
  (txt "Jopf;", [120129]%N);
  (txt "Jscr;", [119973]%N);
  (txt "Jsercy;", [1032]%N);
  (txt "Jukcy;", [1028]%N);
  (txt "KHcy;", [1061]%N);
  (txt "KJcy;", [1036]%N);
  (txt "Kappa;", [922]%N);
  (txt "Kcedil;", [310]%N);
  (txt "Kcy;", [1050]%N);
  (txt "Kfr;", [120078]%N);
  (txt "Kopf;", [120130]%N);
  (txt "Kscr;", [119974]%N);
  (txt "LJcy;", [1033]%N);
  (txt "LT;", [60]%N);
  (txt "Lacute;", [313]%N);
  (txt "Lambda;", [923]%N);
  (txt "Lang;", [10218]%N);
  (txt "Laplacetrf;", [8466]%N);
  (txt "Larr;", [8606]%N);
  (txt "Lcaron;", [317]%N);
  (txt "Lcedil;", [315]%N);
  (txt "Lcy;", [1051]%N);
  (txt "LeftAngleBracket;", [10216]%N);
  (txt "LeftArrow;", [8592]%N);
  (txt "LeftArrowBar;", [8676]%N);
  (txt "LeftArrowRightArrow;", [8646]%N);
  (txt "LeftCeiling;", [8968]%N);
  (txt "LeftDoubleBracket;", [10214]%N);
  (txt "LeftDownTeeVector;", [10593]%N);
  (txt "LeftDownVector;", [8643]%N);
  (txt "LeftDownVectorBar;", [10585]%N);
  (txt "LeftFloor;", [8970]%N);
  (txt "LeftRightArrow;", [8596]%N);
  (txt "LeftRightVector;", [10574]%N);
  (txt "LeftTee;", [8867]%N);
  (txt "LeftTeeArrow;", [8612]%N);
  (txt "LeftTeeVector;", [10586]%N);
  (txt "LeftTriangle;", [8882]%N);
  (txt "LeftTriangleBar;", [10703]%N);
  (txt "LeftTriangleEqual;", [8884]%N);
  (txt "LeftUpDownVector;", [10577]%N);
  (txt "LeftUpTeeVector;", [10592]%N);
  (txt "LeftUpVector;", [8639]%N);
  (txt "LeftUpVectorBar;", [10584]%N);
  (txt "LeftVector;", [8636]%N);
  (txt "LeftVectorBar;", [10578]%N);
  (txt "Leftarrow;", [8656]%N);
  (txt "Leftrightarrow;", [8660]%N);
  (txt "LessEqualGreater;", [8922]%N);
  (txt "LessFullEqual;", [8806]%N);
  (txt "LessGreater;", [8822]%N);
  (txt "LessLess;", [10913]%N);
  (txt "LessSlantEqual;", [10877]%N);
  (txt "LessTilde;", [8818]%N);
  (txt "Lfr;", [120079]%N);
  (txt "Ll;", [8920]%N);
  (txt "Lleftarrow;", [8666]%N);
  (txt "Lmidot;", [319]%N);
  (txt "LongLeftArrow;", [10229]%N);
  (txt "LongLeftRightArrow;", [10231]%N);
  (txt "LongRightArrow;", [10230]%N);
  (txt "Longleftarrow;", [10232]%N);
  (txt "Longleftrightarrow;", [10234]%N);
  (txt "Longrightarrow;", [10233]%N);
  (txt "Lopf;", [120131]%N);
  (txt "LowerLeftArrow;", [8601]%N);
  (txt "LowerRightArrow;", [8600]%N);
  (txt "Lscr;", [8466]%N);
  (txt "Lsh;", [8624]%N);
  (txt "Lstrok;", [321]%N);
  (txt "Lt;", [8810]%N);
  (txt "Map;", [10501]%N);
  (txt "Mcy;", [1052]%N);
  (txt "MediumSpace;", [8287]%N);
  (txt "Mellintrf;", [8499]%N);
  (txt "Mfr;", [120080]%N);
  (txt "MinusPlus;", [8723]%N);
  (txt "Mopf;", [120132]%N);
  (txt "Mscr;", [8499]%N);
  (txt "Mu;", [924]%N);
  (txt "NJcy;", [1034]%N);
  (txt "Nacute;", [323]%N);
  (txt "Ncaron;", [327]%N);
  (txt "Ncedil;", [325]%N);
  (txt "Ncy;", [1053]%N);
  (txt "NegativeMediumSpace;", [8203]%N);
  (txt "NegativeThickSpace;", [8203]%N);
  (txt "NegativeThinSpace;", [8203]%N);
  (txt "NegativeVeryThinSpace;", [8203]%N);
  (txt "NestedGreaterGreater;", [8811]%N);
  (txt "NestedLessLess;", [8810]%N);
  (txt "NewLine;", [10]%N);
  (txt "Nfr;", [120081]%N);
  (txt "NoBreak;", [8288]%N);
  (txt "NonBreakingSpace;", [160]%N);
  (txt "Nopf;", [8469]%N);
  (txt "Not;", [10988]%N);
  (txt "NotCongruent;", [8802]%N);
  (txt "NotCupCap;", [8813]%N);
  (txt "NotDoubleVerticalBar;", [8742]%N);
  (txt "NotElement;", [8713]%N);
  (txt "NotEqual;", [8800]%N);
  (txt "NotExists;", [8708]%N);
  (txt "NotGreater;", [8815]%N);
  (txt "NotGreaterEqual;", [8817]%N);
  (txt "NotGreaterLess;", [8825]%N);
  (txt "NotGreaterTilde;", [8821]%N);
  (txt "NotLeftTriangle;", [8938]%N);
  (txt "NotLeftTriangleEqual;", [8940]%N);
  (txt "NotLess;", [8814]%N);
  (txt "NotLessEqual;", [8816]%N);
  (txt "NotLessGreater;", [8824]%N);
  (txt "NotLessTilde;", [8820]%N);
  (txt "NotPrecedes;", [8832]%N);
  (txt "NotPrecedesSlantEqual;", [8928]%N);
  (txt "NotReverseElement;", [8716]%N);
  (txt "NotRightTriangle;", [8939]%N);
  (txt "NotRightTriangleEqual;", [8941]%N);
  (txt "NotSquareSubsetEqual;", [8930]%N);
  (txt "NotSquareSupersetEqual;", [8931]%N);
  (txt "NotSubsetEqual;", [8840]%N);
  (txt "NotSucceeds;", [8833]%N);
  (txt "NotSucceedsSlantEqual;", [8929]%N);
  (txt "NotSupersetEqual;", [8841]%N);
  (txt "NotTilde;", [8769]%N);
  (txt "NotTildeEqual;", [8772]%N);
  (txt "NotTildeFullEqual;", [8775]%N);
  (txt "NotTildeTilde;", [8777]%N);
  (txt "NotVerticalBar;", [8740]%N);
  (txt "Nscr;", [119977]%N);
  (txt "Ntilde;", [209]%N);
  (txt "Nu;", [925]%N);
  (txt "OElig;", [338]%N);
  (txt "Oacute;", [211]%N);
  (txt "Ocirc;", [212]%N);
  (txt "Ocy;", [1054]%N);
  (txt "Odblac;", [336]%N);
  (txt "Ofr;", [120082]%N);
  (txt "Ograve;", [210]%N);
  (txt "Omacr;", [332]%N);
  (txt "Omega;", [937]%N);
  (txt "Omicron;", [927]%N);
  (txt "Oopf;", [120134]%N);
  (txt "OpenCurlyDoubleQuote;", [8220]%N);
  (txt "OpenCurlyQuote;", [8216]%N);
  (txt "Or;", [10836]%N);
  (txt "Oscr;", [119978]%N);
  (txt "Oslash;", [216]%N);
  (txt "Otilde;", [213]%N);
  (txt "Otimes;", [10807]%N);
  (txt "Ouml;", [214]%N);
  (txt "OverBar;", [8254]%N);
  (txt "OverBrace;", [9182]%N);
  (txt "OverBracket;", [9140]%N);
  (txt "OverParenthesis;", [9180]%N);
  (txt "PartialD;", [8706]%N);
  (txt "Pcy;", [1055]%N);
  (txt "Pfr;", [120083]%N);
  (txt "Phi;", [934]%N);
  (txt "Pi;", [928]%N);
  (txt "PlusMinus;", [177]%N);
  (txt "Poincareplane;", [8460]%N);
  (txt "Popf;", [8473]%N);
  (txt "Pr;", [10939]%N);
  (txt "Precedes;", [8826]%N);
  (txt "PrecedesEqual;", [10927]%N);
  (txt "PrecedesSlantEqual;", [8828]%N);
  (txt "PrecedesTilde;", [8830]%N);
  (txt "Prime;", [8243]%N);
  (txt "Product;", [8719]%N);
  (txt "Proportion;", [8759]%N);
  (txt "Proportional;", [8733]%N);
  (txt "Pscr;", [119979]%N);
  (txt "Psi;", [936]%N);
  (txt "QUOT;", [34]%N);
  (txt "Qfr;", [120084]%N);
  (txt "Qopf;", [8474]%N);
  (txt "Qscr;", [119980]%N);
  (txt "RBarr;", [10512]%N);
  (txt "REG;", [174]%N);
  (txt "Racute;", [340]%N);
  (txt "Rang;", [10219]%N);
  (txt "Rarr;", [8608]%N);
  (txt "Rarrtl;", [10518]%N);
  (txt "Rcaron;", [344]%N);
  (txt "Rcedil;", [342]%N);
  (txt "Rcy;", [1056]%N);
  (txt "Re;", [8476]%N);
  (txt "ReverseElement;", [8715]%N);
  (txt "ReverseEquilibrium;", [8651]%N);
  (txt "ReverseUpEquilibrium;", [10607]%N);
  (txt "Rfr;", [8476]%N);
  (txt "Rho;", [929]%N);
  (txt "RightAngleBracket;", [10217]%N);
  (txt "RightArrow;", [8594]%N);
  (txt "RightArrowBar;", [8677]%N);
  (txt "RightArrowLeftArrow;", [8644]%N);
  (txt "RightCeiling;", [8969]%N);
  (txt "RightDoubleBracket;", [10215]%N);
  (txt "RightDownTeeVector;", [10589]%N);
  (txt "RightDownVector;", [8642]%N);
  (txt "RightDownVectorBar;", [10581]%N);
  (txt "RightFloor;", [8971]%N);
  (txt "RightTee;", [8866]%N);
  (txt "RightTeeArrow;", [8614]%N);
  (txt "RightTeeVector;", [10587]%N);
  (txt "RightTriangle;", [8883]%N);
  (txt "RightTriangleBar;", [10704]%N);
  (txt "RightTriangleEqual;", [8885]%N);
  (txt "RightUpDownVector;", [10575]%N);
  (txt "RightUpTeeVector;", [10588]%N);
  (txt "RightUpVector;", [8638]%N);
  (txt "RightUpVectorBar;", [10580]%N);
  (txt "RightVector;", [8640]%N);
  (txt "RightVectorBar;", [10579]%N);
  (txt "Rightarrow;", [8658]%N);
  (txt "Ropf;", [8477]%N);
  (txt "RoundImplies;", [10608]%N);
  (txt "Rrightarrow;", [8667]%N);
  (txt "Rscr;", [8475]%N);
  (txt "Rsh;", [8625]%N);
  (txt "RuleDelayed;", [10740]%N);
  (txt "SHCHcy;", [1065]%N);
  (txt "SHcy;", [1064]%N);
  (txt "SOFTcy;", [1068]%N);
  (txt "Sacute;", [346]%N);
  (txt "Sc;", [10940]%N);
  (txt "Scaron;", [352]%N);
  (txt "Scedil;", [350]%N);
  (txt "Scirc;", [348]%N);
  (txt "Scy;", [1057]%N);
  (txt "Sfr;", [120086]%N);
  (txt "ShortDownArrow;", [8595]%N);
  (txt "ShortLeftArrow;", [8592]%N);
  (txt "ShortRightArrow;", [8594]%N);
  (txt "ShortUpArrow;", [8593]%N);
  (txt "Sigma;", [931]%N);
  (txt "SmallCircle;", [8728]%N);
  (txt "Sopf;", [120138]%N);
  (txt "Sqrt;", [8730]%N);
  (txt "Square;", [9633]%N);
  (txt "SquareIntersection;", [8851]%N);
  (txt "SquareSubset;", [8847]%N);
  (txt "SquareSubsetEqual;", [8849]%N);
  (txt "SquareSuperset;", [8848]%N);
  (txt "SquareSupersetEqual;", [8850]%N);
  (txt "SquareUnion;", [8852]%N);
  (txt "Sscr;", [119982]%N);
  (txt "Star;", [8902]%N);
  (txt "Sub;", [8912]%N);
  (txt "Subset;", [8912]%N);
  (txt "SubsetEqual;", [8838]%N);
  (txt "Succeeds;", [8827]%N);
  (txt "SucceedsEqual;", [10928]%N);
  (txt "SucceedsSlantEqual;", [8829]%N);
  (txt "SucceedsTilde;", [8831]%N);
  (txt "SuchThat;", [8715]%N);
  (txt "Sum;", [8721]%N);
  (txt "Sup;", [8913]%N);
  (txt "Superset;", [8835]%N);
  (txt "SupersetEqual;", [8839]%N);
  (txt "Supset;", [8913]%N);
  (txt "THORN;", [222]%N);
  (txt "TRADE;", [8482]%N);
  (txt "TSHcy;", [1035]%N);
  (txt "TScy;", [1062]%N);
  (txt "Tab;", [9]%N);
  (txt "Tau;", [932]%N);
  (txt "Tcaron;", [356]%N);
  (txt "Tcedil;", [354]%N);
  (txt "Tcy;", [1058]%N);
  (txt "Tfr;", [120087]%N);
  (txt "Therefore;", [8756]%N);
  (txt "Theta;", [920]%N);
  (txt "ThinSpace;", [8201]%N);
  (txt "Tilde;", [8764]%N);
  (txt "TildeEqual;", [8771]%N);
  (txt "TildeFullEqual;", [8773]%N);
  (txt "TildeTilde;", [8776]%N);
  (txt "Topf;", [120139]%N);
  (txt "TripleDot;", [8411]%N);
  (txt "Tscr;", [119983]%N);
  (txt "Tstrok;", [358]%N);
  (txt "Uacute;", [218]%N);
  (txt "Uarr;", [8607]%N);
  (txt "Uarrocir;", [10569]%N);
  (txt "Ubrcy;", [1038]%N);
  (txt "Ubreve;", [364]%N);
  (txt "Ucirc;", [219]%N);
  (txt "Ucy;", [1059]%N);
  (txt "Udblac;", [368]%N);
  (txt "Ufr;", [120088]%N);
  (txt "Ugrave;", [217]%N);
  (txt "Umacr;", [362]%N);
  (txt "UnderBar;", [95]%N);
  (txt "UnderBrace;", [9183]%N);
  (txt "UnderBracket;", [9141]%N);
  (txt "UnderParenthesis;", [9181]%N);
  (txt "Union;", [8899]%N);
  (txt "UnionPlus;", [8846]%N);
  (txt "Uogon;", [370]%N);
  (txt "Uopf;", [120140]%N);
  (txt "UpArrow;", [8593]%N);
  (txt "UpArrowBar;", [10514]%N);
  (txt "UpArrowDownArrow;", [8645]%N);
  (txt "UpDownArrow;", [8597]%N);
  (txt "UpEquilibrium;", [10606]%N);
  (txt "UpTee;", [8869]%N);
  (txt "UpTeeArrow;", [8613]%N);
  (txt "Uparrow;", [8657]%N);
  (txt "Updownarrow;", [8661]%N);
  (txt "UpperLeftArrow;", [8598]%N);
  (txt "UpperRightArrow;", [8599]%N);
  (txt "Upsi;", [978]%N);
  (txt "Upsilon;", [933]%N);
  (txt "Uring;", [366]%N);
  (txt "Uscr;", [119984]%N);
  (txt "Utilde;", [360]%N);
  (txt "Uuml;", [220]%N);
  (txt "VDash;", [8875]%N);
  (txt "Vbar;", [10987]%N);
  (txt "Vcy;", [1042]%N);
  (txt "Vdash;", [8873]%N);
  (txt "Vdashl;", [10982]%N);
  (txt "Vee;", [8897]%N);
  (txt "Verbar;", [8214]%N);
  (txt "Vert;", [8214]%N);
  (txt "VerticalBar;", [8739]%N);
  (txt "VerticalLine;", [124]%N);
  (txt "VerticalSeparator;", [10072]%N);
  (txt "VerticalTilde;", [8768]%N);
  (txt "VeryThinSpace;", [8202]%N);
  (txt "Vfr;", [120089]%N);
  (txt "Vopf;", [120141]%N);
  (txt "Vscr;", [119985]%N);
  (txt "Vvdash;", [8874]%N);
  (txt "Wcirc;", [372]%N);
  (txt "Wedge;", [8896]%N);
  (txt "Wfr;", [120090]%N);
  (txt "Wopf;", [120142]%N);
  (txt "Wscr;", [119986]%N);
  (txt "Xfr;", [120091]%N);
  (txt "Xi;", [926]%N);
  (txt "Xopf;", [120143]%N);
  (txt "Xscr;", [119987]%N);
  (txt "YAcy;", [1071]%N);
  (txt "YIcy;", [1031]%N);
  (txt "YUcy;", [1070]%N);
  (txt "Yacute;", [221]%N);
  (txt "Ycirc;", [374]%N);
  (txt "Ycy;", [1067]%N);
  (txt "Yfr;", [120092]%N);
  (txt "Yopf;", [120144]%N);
  (txt "Yscr;", [119988]%N);
  (txt "Yuml;", [376]%N);
  (txt "ZHcy;", [1046]%N);
  (txt "Zacute;", [377]%N);
  (txt "Zcaron;", [381]%N);
  (txt "Zcy;", [1047]%N);
  (txt "Zdot;", [379]%N);
  (txt "ZeroWidthSpace;", [8203]%N);
  (txt "Zeta;", [918]%N);
  (txt "Zfr;", [8488]%N);
  (txt "Zopf;", [8484]%N);
  (txt "Zscr;", [119989]%N);
  (txt "aacute;", [225]%N);
  (txt "abreve;", [259]%N);
  (txt "ac;", [8766]%N);
  (txt "acd;", [8767]%N);
  (txt "acirc;", [226]%N);
  (txt "acute;", [180]%N);
  (txt "acy;", [1072]%N);
  (txt "aelig;", [230]%N);
  (txt "af;", [8289]%N);
  (txt "afr;", [120094]%N);
  (txt "agrave;", [224]%N);
  (txt "alefsym;", [8501]%N);
  (txt "aleph;", [8501]%N);
  (txt "alpha;", [945]%N);
  (txt "amacr;", [257]%N);
  (txt "amalg;", [10815]%N);
  (txt "amp;", [38]%N);
  (txt "and;", [8743]%N);
  (txt "andand;", [10837]%N);
  (txt "andd;", [10844]%N);
  (txt "andslope;", [10840]%N);
  (txt "andv;", [10842]%N);
  (txt "ang;", [8736]%N);
  (txt "ange;", [10660]%N);
  (txt "angle;", [8736]%N);
  (txt "angmsd;", [8737]%N);
  (txt "angmsdaa;", [10664]%N);
  (txt "angmsdab;", [10665]%N);
  (txt "angmsdac;", [10666]%N);
  (txt "angmsdad;", [10667]%N);
  (txt "angmsdae;", [10668]%N);
  (txt "angmsdaf;", [10669]%N);
  (txt "angmsdag;", [10670]%N);
  (txt "angmsdah;", [10671]%N);
  (txt "angrt;", [8735]%N);
  (txt "angrtvb;", [8894]%N);
  (txt "angrtvbd;", [10653]%N);
  (txt "angsph;", [8738]%N);
  (txt "angst;", [197]%N);
  (txt "angzarr;", [9084]%N);
  (txt "aogon;", [261]%N);
  (txt "aopf;", [120146]%N);
  (txt "ap;", [8776]%N);
  (txt "apE;", [10864]%N);
  (txt "apacir;", [10863]%N);
  (txt "ape;", [8778]%N);
  (txt "apid;", [8779]%N);
  (txt "apos;", [39]%N);
  (txt "approx;", [8776]%N);
  (txt "approxeq;", [8778]%N);
  (txt "aring;", [229]%N);
  (txt "ascr;", [119990]%N);
  (txt "ast;", [42]%N);
  (txt "asymp;", [8776]%N);
  (txt "asympeq;", [8781]%N);
  (txt "atilde;", [227]%N);
  (txt "auml;", [228]%N);
  (txt "awconint;", [8755]%N);
  (txt "awint;", [10769]%N);
  (txt "bNot;", [10989]%N);
  (txt "backcong;", [8780]%N);
  (txt "backepsilon;", [1014]%N);
  (txt "backprime;", [8245]%N);
  (txt "backsim;", [8765]%N);
  (txt "backsimeq;", [8909]%N);
  (txt "barvee;", [8893]%N);
  (txt "barwed;", [8965]%N);
  (txt "barwedge;", [8965]%N);
  (txt "bbrk;", [9141]%N);
  (txt "bbrktbrk;", [9142]%N);
  (txt "bcong;", [8780]%N);
  (txt "bcy;", [1073]%N);
  (txt "bdquo;", [8222]%N);
  (txt "becaus;", [8757]%N);
  (txt "because;", [8757]%N);
  (txt "bemptyv;", [10672]%N);
  (txt "bepsi;", [1014]%N);
  (txt "bernou;", [8492]%N);
  (txt "beta;", [946]%N);
  (txt "beth;", [8502]%N);
  (txt "between;", [8812]%N);
  (txt "bfr;", [120095]%N);
  (txt "bigcap;", [8898]%N);
  (txt "bigcirc;", [9711]%N);
  (txt "bigcup;", [8899]%N);
  (txt "bigodot;", [10752]%N);
  (txt "bigoplus;", [10753]%N);
  (txt "bigotimes;", [10754]%N);
  (txt "bigsqcup;", [10758]%N);
  (txt "bigstar;", [9733]%N);
  (txt "bigtriangledown;", [9661]%N);
  (txt "bigtriangleup;", [9651]%N);
  (txt "biguplus;", [10756]%N);
  (txt "bigvee;", [8897]%N);
  (txt "bigwedge;", [8896]%N);
  (txt "bkarow;", [10509]%N);
  (txt "blacklozenge;", [10731]%N);
  (txt "blacksquare;", [9642]%N);
  (txt "blacktriangle;", [9652]%N);
  (txt "blacktriangledown;", [9662]%N);
  (txt "blacktriangleleft;", [9666]%N);
  (txt "blacktriangleright;", [9656]%N);
  (txt "blank;", [9251]%N);
  (txt "blk12;", [9618]%N);
  (txt "blk14;", [9617]%N);
  (txt "blk34;", [9619]%N);
  (txt "block;", [9608]%N);
  (txt "bnot;", [8976]%N);
  (txt "bopf;", [120147]%N);
  (txt "bot;", [8869]%N);
  (txt "bottom;", [8869]%N);
  (txt "bowtie;", [8904]%N);
  (txt "boxDL;", [9559]%N);
  (txt "boxDR;", [9556]%N);
  (txt "boxDl;", [9558]%N);
  (txt "boxDr;", [9555]%N);
  (txt "boxH;", [9552]%N);
  (txt "boxHD;", [9574]%N);
  (txt "boxHU;", [9577]%N);
  (txt "boxHd;", [9572]%N);
  (txt "boxHu;", [9575]%N);
  (txt "boxUL;", [9565]%N);
  (txt "boxUR;", [9562]%N);
  (txt "boxUl;", [9564]%N);
  (txt "boxUr;", [9561]%N);
  (txt "boxV;", [9553]%N);
  (txt "boxVH;", [9580]%N);
  (txt "boxVL;", [9571]%N);
  (txt "boxVR;", [9568]%N);
  (txt "boxVh;", [9579]%N);
  (txt "boxVl;", [9570]%N);
  (txt "boxVr;", [9567]%N);
  (txt "boxbox;", [10697]%N);
  (txt "boxdL;", [9557]%N);
  (txt "boxdR;", [9554]%N);
  (txt "boxdl;", [9488]%N);
  (txt "boxdr;", [9484]%N);
  (txt "boxh;", [9472]%N);
  (txt "boxhD;", [9573]%N);
  (txt "boxhU;", [9576]%N);
  (txt "boxhd;", [9516]%N);
  (txt "boxhu;", [9524]%N);
  (txt "boxminus;", [8863]%N);
  (txt "boxplus;", [8862]%N);
  (txt "boxtimes;", [8864]%N);
  (txt "boxuL;", [9563]%N);
  (txt "boxuR;", [9560]%N);
  (txt "boxul;", [9496]%N);
  (txt "boxur;", [9492]%N);
  (txt "boxv;", [9474]%N);
  (txt "boxvH;", [9578]%N);
  (txt "boxvL;", [9569]%N);
  (txt "boxvR;", [9566]%N);
  (txt "boxvh;", [9532]%N);
  (txt "boxvl;", [9508]%N);
  (txt "boxvr;", [9500]%N);
  (txt "bprime;", [8245]%N);
  (txt "breve;", [728]%N);
  (txt "brvbar;", [166]%N);
  (txt "bscr;", [119991]%N);
  (txt "bsemi;", [8271]%N);
  (txt "bsim;", [8765]%N);
  (txt "bsime;", [8909]%N);
  (txt "bsol;", [92]%N);
  (txt "bsolb;", [10693]%N);
  (txt "bsolhsub;", [10184]%N);
  (txt "bull;", [8226]%N);
  (txt "bullet;", [8226]%N);
  (txt "bump;", [8782]%N);
  (txt "bumpE;", [10926]%N);
  (txt "bumpe;", [8783]%N);
  (txt "bumpeq;", [8783]%N);
  (txt "cacute;", [263]%N);
  (txt "cap;", [8745]%N);
  (txt "capand;", [10820]%N);
  (txt "capbrcup;", [10825]%N);
  (txt "capcap;", [10827]%N);
  (txt "capcup;", [10823]%N);
  (txt "capdot;", [10816]%N);
  (txt "caret;", [8257]%N);
  (txt "caron;", [711]%N);
  (txt "ccaps;", [10829]%N);
  (txt "ccaron;", [269]%N);
  (txt "ccedil;", [231]%N);
  (txt "ccirc;", [265]%N);
  (txt "ccups;", [10828]%N);
  (txt "ccupssm;", [10832]%N);
  (txt "cdot;", [267]%N);
  (txt "cedil;", [184]%N);
  (txt "cemptyv;", [10674]%N);
  (txt "cent;", [162]%N);
  (txt "centerdot;", [183]%N);
  (txt "cfr;", [120096]%N);
  (txt "chcy;", [1095]%N);
  (txt "check;", [10003]%N);
  (txt "checkmark;", [10003]%N);
  (txt "chi;", [967]%N);
  (txt "cir;", [9675]%N);
  (txt "cirE;", [10691]%N);
  (txt "circ;", [710]%N);
  (txt "circeq;", [8791]%N);
  (txt "circlearrowleft;", [8634]%N);
  (txt "circlearrowright;", [8635]%N);
  (txt "circledR;", [174]%N);
  (txt "circledS;", [9416]%N);
  (txt "circledast;", [8859]%N);
  (txt "circledcirc;", [8858]%N);
  (txt "circleddash;", [8861]%N);
  (txt "cire;", [8791]%N);
  (txt "cirfnint;", [10768]%N);
  (txt "cirmid;", [10991]%N);
  (txt "cirscir;", [10690]%N);
  (txt "clubs;", [9827]%N);
  (txt "clubsuit;", [9827]%N);
  (txt "colon;", [58]%N);
  (txt "colone;", [8788]%N);
  (txt "coloneq;", [8788]%N);
  (txt "comma;", [44]%N);
  (txt "commat;", [64]%N);
  (txt "comp;", [8705]%N);
  (txt "compfn;", [8728]%N);
  (txt "complement;", [8705]%N);
  (txt "complexes;", [8450]%N);
  (txt "cong;", [8773]%N);
  (txt "congdot;", [10861]%N);
  (txt "conint;", [8750]%N);
  (txt "copf;", [120148]%N);
  (txt "coprod;", [8720]%N);
  (txt "copy;", [169]%N);
  (txt "copysr;", [8471]%N);
  (txt "crarr;", [8629]%N);
  (txt "cross;", [10007]%N);
  (txt "cscr;", [119992]%N);
  (txt "csub;", [10959]%N);
  (txt "csube;", [10961]%N);
  (txt "csup;", [10960]%N);
  (txt "csupe;", [10962]%N);
  (txt "ctdot;", [8943]%N);
  (txt "cudarrl;", [10552]%N);
  (txt "cudarrr;", [10549]%N);
  (txt "cuepr;", [8926]%N);
  (txt "cuesc;", [8927]%N);
  (txt "cularr;", [8630]%N);
  (txt "cularrp;", [10557]%N);
  (txt "cup;", [8746]%N);
  (txt "cupbrcap;", [10824]%N);
  (txt "cupcap;", [10822]%N);
  (txt "cupcup;", [10826]%N);
  (txt "cupdot;", [8845]%N);
  (txt "cupor;", [10821]%N);
  (txt "curarr;", [8631]%N);
  (txt "curarrm;", [10556]%N);
  (txt "curlyeqprec;", [8926]%N);
  (txt "curlyeqsucc;", [8927]%N);
  (txt "curlyvee;", [8910]%N);
  (txt "curlywedge;", [8911]%N);
  (txt "curren;", [164]%N);
  (txt "curvearrowleft;", [8630]%N);
  (txt "curvearrowright;", [8631]%N);
  (txt "cuvee;", [8910]%N);
  (txt "cuwed;", [8911]%N);
  (txt "cwconint;", [8754]%N);
  (txt "cwint;", [8753]%N);
  (txt "cylcty;", [9005]%N);
  (txt "dArr;", [8659]%N);
  (txt "dHar;", [10597]%N);
  (txt "dagger;", [8224]%N);
  (txt "daleth;", [8504]%N);
  (txt "darr;", [8595]%N);
  (txt "dash;", [8208]%N);
  (txt "dashv;", [8867]%N);
  (txt "dbkarow;", [10511]%N);
  (txt "dblac;", [733]%N);
  (txt "dcaron;", [271]%N);
  (txt "dcy;", [1076]%N);
  (txt "dd;", [8518]%N);
  (txt "ddagger;", [8225]%N);
  (txt "ddarr;", [8650]%N);
  (txt "ddotseq;", [10871]%N);
  (txt "deg;", [176]%N);
  (txt "delta;", [948]%N);
  (txt "demptyv;", [10673]%N);
  (txt "dfisht;", [10623]%N);
  (txt "dfr;", [120097]%N);
  (txt "dharl;", [8643]%N);
  (txt "dharr;", [8642]%N);
  (txt "diam;", [8900]%N);
  (txt "diamond;", [8900]%N);
  (txt "diamondsuit;", [9830]%N);
  (txt "diams;", [9830]%N);
  (txt "die;", [168]%N);
  (txt "digamma;", [989]%N);
  (txt "disin;", [8946]%N);
  (txt "div;", [247]%N);
  (txt "divide;", [247]%N);
  (txt "divideontimes;", [8903]%N);
  (txt "divonx;", [8903]%N);
  (txt "djcy;", [1106]%N);
  (txt "dlcorn;", [8990]%N);
  (txt "dlcrop;", [8973]%N);
  (txt "dollar;", [36]%N);
  (txt "dopf;", [120149]%N);
  (txt "dot;", [729]%N);
  (txt "doteq;", [8784]%N);
  (txt "doteqdot;", [8785]%N);
  (txt "dotminus;", [8760]%N);
  (txt "dotplus;", [8724]%N);
  (txt "dotsquare;", [8865]%N);
  (txt "doublebarwedge;", [8966]%N);
  (txt "downarrow;", [8595]%N);
  (txt "downdownarrows;", [8650]%N);
  (txt "downharpoonleft;", [8643]%N);
  (txt "downharpoonright;", [8642]%N);
  (txt "drbkarow;", [10512]%N);
  (txt "drcorn;", [8991]%N);
  (txt "drcrop;", [8972]%N);
  (txt "dscr;", [119993]%N);
  (txt "dscy;", [1109]%N);
  (txt "dsol;", [10742]%N);
  (txt "dstrok;", [273]%N);
  (txt "dtdot;", [8945]%N);
  (txt "dtri;", [9663]%N);
  (txt "dtrif;", [9662]%N);
  (txt "duarr;", [8693]%N);
  (txt "duhar;", [10607]%N);
  (txt "dwangle;", [10662]%N);
  (txt "dzcy;", [1119]%N);
  (txt "dzigrarr;", [10239]%N);
  (txt "eDDot;", [10871]%N);
  (txt "eDot;", [8785]%N);
  (txt "eacute;", [233]%N);
  (txt "easter;", [10862]%N);
  (txt "ecaron;", [283]%N);
  (txt "ecir;", [8790]%N);
  (txt "ecirc;", [234]%N);
  (txt "ecolon;", [8789]%N);
  (txt "ecy;", [1101]%N);
  (txt "edot;", [279]%N);
  (txt "ee;", [8519]%N);
  (txt "efDot;", [8786]%N);
  (txt "efr;", [120098]%N);
  (txt "eg;", [10906]%N);
  (txt "egrave;", [232]%N);
  (txt "egs;", [10902]%N);
  (txt "egsdot;", [10904]%N);
  (txt "el;", [10905]%N);
  (txt "elinters;", [9191]%N);
  (txt "ell;", [8467]%N);
  (txt "els;", [10901]%N);
  (txt "elsdot;", [10903]%N);
  (txt "emacr;", [275]%N);
  (txt "empty;", [8709]%N);
  (txt "emptyset;", [8709]%N);
  (txt "emptyv;", [8709]%N);
  (txt "emsp;", [8195]%N);
  (txt "emsp13;", [8196]%N);
  (txt "emsp14;", [8197]%N);
  (txt "eng;", [331]%N);
  (txt "ensp;", [8194]%N);
  (txt "eogon;", [281]%N);
  (txt "eopf;", [120150]%N);
  (txt "epar;", [8917]%N);
  (txt "eparsl;", [10723]%N);
  (txt "eplus;", [10865]%N);
  (txt "epsi;", [949]%N);
  (txt "epsilon;", [949]%N);
  (txt "epsiv;", [1013]%N);
  (txt "eqcirc;", [8790]%N);
  (txt "eqcolon;", [8789]%N);
  (txt "eqsim;", [8770]%N);
  (txt "eqslantgtr;", [10902]%N);
  (txt "eqslantless;", [10901]%N);
  (txt "equals;", [61]%N);
  (txt "equest;", [8799]%N);
  (txt "equiv;", [8801]%N);
  (txt "equivDD;", [10872]%N);
  (txt "eqvparsl;", [10725]%N);
  (txt "erDot;", [8787]%N);
  (txt "erarr;", [10609]%N);
  (txt "escr;", [8495]%N);
  (txt "esdot;", [8784]%N);
  (txt "esim;", [8770]%N);
  (txt "eta;", [951]%N);
  (txt "eth;", [240]%N);
  (txt "euml;", [235]%N);
  (txt "euro;", [8364]%N);
  (txt "excl;", [33]%N);
  (txt "exist;", [8707]%N);
  (txt "expectation;", [8496]%N);
  (txt "exponentiale;", [8519]%N);
  (txt "fallingdotseq;", [8786]%N);
  (txt "fcy;", [1092]%N);
  (txt "female;", [9792]%N);
  (txt "ffilig;", [64259]%N);
  (txt "fflig;", [64256]%N);
  (txt "ffllig;", [64260]%N);
  (txt "ffr;", [120099]%N);
  (txt "filig;", [64257]%N);
  (txt "flat;", [9837]%N);
  (txt "fllig;", [64258]%N);
  (txt "fltns;", [9649]%N);
  (txt "fnof;", [402]%N);
  (txt "fopf;", [120151]%N);
  (txt "forall;", [8704]%N);
  (txt "fork;", [8916]%N);
  (txt "forkv;", [10969]%N);
  (txt "fpartint;", [10765]%N);
  (txt "frac12;", [189]%N);
  (txt "frac13;", [8531]%N);
  (txt "frac14;", [188]%N);
  (txt "frac15;", [8533]%N);
  (txt "frac16;", [8537]%N);
  (txt "frac18;", [8539]%N);
  (txt "frac23;", [8532]%N);
  (txt "frac25;", [8534]%N);
  (txt "frac34;", [190]%N);
  (txt "frac35;", [8535]%N);
  (txt "frac38;", [8540]%N);
  (txt "frac45;", [8536]%N);
  (txt "frac56;", [8538]%N);
  (txt "frac58;", [8541]%N);
  (txt "frac78;", [8542]%N);
  (txt "frasl;", [8260]%N);
  (txt "frown;", [8994]%N);
  (txt "fscr;", [119995]%N);
  (txt "gE;", [8807]%N);
  (txt "gEl;", [10892]%N);
  (txt "gacute;", [501]%N);
  (txt "gamma;", [947]%N);
  (txt "gammad;", [989]%N);
  (txt "gap;", [10886]%N);
  (txt "gbreve;", [287]%N);
  (txt "gcirc;", [285]%N);
  (txt "gcy;", [1075]%N);
  (txt "gdot;", [289]%N);
  (txt "ge;", [8805]%N);
  (txt "gel;", [8923]%N);
  (txt "geq;", [8805]%N);
  (txt "geqq;", [8807]%N);
  (txt "geqslant;", [10878]%N);
  (txt "ges;", [10878]%N);
  (txt "gescc;", [10921]%N);
  (txt "gesdot;", [10880]%N);
  (txt "gesdoto;", [10882]%N);
  (txt "gesdotol;", [10884]%N);
  (txt "gesles;", [10900]%N);
  (txt "gfr;", [120100]%N);
  (txt "gg;", [8811]%N);
  (txt "ggg;", [8921]%N);
  (txt "gimel;", [8503]%N);
  (txt "gjcy;", [1107]%N);
  (txt "gl;", [8823]%N);
  (txt "glE;", [10898]%N);
  (txt "gla;", [10917]%N);
  (txt "glj;", [10916]%N);
  (txt "gnE;", [8809]%N);
  (txt "gnap;", [10890]%N);
  (txt "gnapprox;", [10890]%N);
  (txt "gne;", [10888]%N);
  (txt "gneq;", [10888]%N);
  (txt "gneqq;", [8809]%N);
  (txt "gnsim;", [8935]%N);
  (txt "gopf;", [120152]%N);
  (txt "grave;", [96]%N);
  (txt "gscr;", [8458]%N);
  (txt "gsim;", [8819]%N);
  (txt "gsime;", [10894]%N);
  (txt "gsiml;", [10896]%N);
  (txt "gt;", [62]%N);
  (txt "gtcc;", [10919]%N);
  (txt "gtcir;", [10874]%N);
  (txt "gtdot;", [8919]%N);
  (txt "gtlPar;", [10645]%N);
  (txt "gtquest;", [10876]%N);
  (txt "gtrapprox;", [10886]%N);
  (txt "gtrarr;", [10616]%N);
  (txt "gtrdot;", [8919]%N);
  (txt "gtreqless;", [8923]%N);
  (txt "gtreqqless;", [10892]%N);
  (txt "gtrless;", [8823]%N);
  (txt "gtrsim;", [8819]%N);
  (txt "hArr;", [8660]%N);
  (txt "hairsp;", [8202]%N);
  (txt "half;", [189]%N);
  (txt "hamilt;", [8459]%N);
  (txt "hardcy;", [1098]%N);
  (txt "harr;", [8596]%N);
  (txt "harrcir;", [10568]%N);
  (txt "harrw;", [8621]%N);
  (txt "hbar;", [8463]%N);
  (txt "hcirc;", [293]%N);
  (txt "hearts;", [9829]%N);
  (txt "heartsuit;", [9829]%N);
  (txt "hellip;", [8230]%N);
  (txt "hercon;", [8889]%N);
  (txt "hfr;", [120101]%N);
  (txt "hksearow;", [10533]%N);
  (txt "hkswarow;", [10534]%N);
  (txt "hoarr;", [8703]%N);
  (txt "homtht;", [8763]%N);
  (txt "hookleftarrow;", [8617]%N);
  (txt "hookrightarrow;", [8618]%N);
  (txt "hopf;", [120153]%N);
  (txt "horbar;", [8213]%N);
  (txt "hscr;", [119997]%N);
  (txt "hslash;", [8463]%N);
  (txt "hstrok;", [295]%N);
  (txt "hybull;", [8259]%N);
  (txt "hyphen;", [8208]%N);
  (txt "iacute;", [237]%N);
  (txt "ic;", [8291]%N);
  (txt "icirc;", [238]%N);
  (txt "icy;", [1080]%N);
  (txt "iecy;", [1077]%N);
  (txt "iexcl;", [161]%N);
  (txt "iff;", [8660]%N);
  (txt "ifr;", [120102]%N);
  (txt "igrave;", [236]%N);
  (txt "ii;", [8520]%N);
  (txt "iiiint;", [10764]%N);
  (txt "iiint;", [8749]%N);
  (txt "iinfin;", [10716]%N);
  (txt "iiota;", [8489]%N);
  (txt "ijlig;", [307]%N);
  (txt "imacr;", [299]%N);
  (txt "image;", [8465]%N);
  (txt "imagline;", [8464]%N);
  (txt "imagpart;", [8465]%N);
  (txt "imath;", [305]%N);
  (txt "imof;", [8887]%N);
  (txt "imped;", [437]%N);
  (txt "in;", [8712]%N);
  (txt "incare;", [8453]%N);
  (txt "infin;", [8734]%N);
  (txt "infintie;", [10717]%N);
  (txt "inodot;", [305]%N);
  (txt "int;", [8747]%N);
  (txt "intcal;", [8890]%N);
  (txt "integers;", [8484]%N);
  (txt "intercal;", [8890]%N);
  (txt "intlarhk;", [10775]%N);
  (txt "intprod;", [10812]%N);
  (txt "iocy;", [1105]%N);
  (txt "iogon;", [303]%N);
  (txt "iopf;", [120154]%N);
  (txt "iota;", [953]%N);
  (txt "iprod;", [10812]%N);
  (txt "iquest;", [191]%N);
  (txt "iscr;", [119998]%N);
  (txt "isin;", [8712]%N);
  (txt "isinE;", [8953]%N);
  (txt "isindot;", [8949]%N);
  (txt "isins;", [8948]%N);
  (txt "isinsv;", [8947]%N);
  (txt "isinv;", [8712]%N);
  (txt "it;", [8290]%N);
  (txt "itilde;", [297]%N);
  (txt "iukcy;", [1110]%N);
  (txt "iuml;", [239]%N);
  (txt "jcirc;", [309]%N);
  (txt "jcy;", [1081]%N);
  (txt "jfr;", [120103]%N);
  (txt "jmath;", [567]%N);
  (txt "jopf;", [120155]%N);
  (txt "jscr;", [119999]%N);
  (txt "jsercy;", [1112]%N);
  (txt "jukcy;", [1108]%N);
  (txt "kappa;", [954]%N);
  (txt "kappav;", [1008]%N);
  (txt "kcedil;", [311]%N);
  (txt "kcy;", [1082]%N);
  (txt "kfr;", [120104]%N);
  (txt "kgreen;", [312]%N);
  (txt "khcy;", [1093]%N);
  (txt "kjcy;", [1116]%N);
  (txt "kopf;", [120156]%N);
  (txt "kscr;", [120000]%N);
  (txt "lAarr;", [8666]%N);
  (txt "lArr;", [8656]%N);
  (txt "lAtail;", [10523]%N);
  (txt "lBarr;", [10510]%N);
  (txt "lE;", [8806]%N);
  (txt "lEg;", [10891]%N);
  (txt "lHar;", [10594]%N);
  (txt "lacute;", [314]%N);
  (txt "laemptyv;", [10676]%N);
  (txt "lagran;", [8466]%N);
  (txt "lambda;", [955]%N);
  (txt "lang;", [10216]%N);
  (txt "langd;", [10641]%N);
  (txt "langle;", [10216]%N);
  (txt "lap;", [10885]%N);
  (txt "laquo;", [171]%N);
  (txt "larr;", [8592]%N);
  (txt "larrb;", [8676]%N);
  (txt "larrbfs;", [10527]%N);
  (txt "larrfs;", [10525]%N);
  (txt "larrhk;", [8617]%N);
  (txt "larrlp;", [8619]%N);
  (txt "larrpl;", [10553]%N);
  (txt "larrsim;", [10611]%N);
  (txt "larrtl;", [8610]%N);
  (txt "lat;", [10923]%N);
  (txt "latail;", [10521]%N);
  (txt "late;", [10925]%N);
  (txt "lbarr;", [10508]%N);
  (txt "lbbrk;", [10098]%N);
  (txt "lbrace;", [123]%N);
  (txt "lbrack;", [91]%N);
  (txt "lbrke;", [10635]%N);
  (txt "lbrksld;", [10639]%N);
  (txt "lbrkslu;", [10637]%N);
  (txt "lcaron;", [318]%N);
  (txt "lcedil;", [316]%N);
  (txt "lceil;", [8968]%N);
  (txt "lcub;", [123]%N);
  (txt "lcy;", [1083]%N);
  (txt "ldca;", [10550]%N);
  (txt "ldquo;", [8220]%N);
  (txt "ldquor;", [8222]%N);
  (txt "ldrdhar;", [10599]%N);
  (txt "ldrushar;", [10571]%N);
  (txt "ldsh;", [8626]%N);
  (txt "le;", [8804]%N);
  (txt "leftarrow;", [8592]%N);
  (txt "leftarrowtail;", [8610]%N);
  (txt "leftharpoondown;", [8637]%N);
  (txt "leftharpoonup;", [8636]%N);
  (txt "leftleftarrows;", [8647]%N);
  (txt "leftrightarrow;", [8596]%N);
  (txt "leftrightarrows;", [8646]%N);
  (txt "leftrightharpoons;", [8651]%N);
  (txt "leftrightsquigarrow;", [8621]%N);
  (txt "leftthreetimes;", [8907]%N);
  (txt "leg;", [8922]%N);
  (txt "leq;", [8804]%N);
  (txt "leqq;", [8806]%N);
  (txt "leqslant;", [10877]%N);
  (txt "les;", [10877]%N);
  (txt "lescc;", [10920]%N);
  (txt "lesdot;", [10879]%N);
  (txt "lesdoto;", [10881]%N);
  (txt "lesdotor;", [10883]%N);
  (txt "lesges;", [10899]%N);
  (txt "lessapprox;", [10885]%N);
  (txt "lessdot;", [8918]%N);
  (txt "lesseqgtr;", [8922]%N);
  (txt "lesseqqgtr;", [10891]%N);
  (txt "lessgtr;", [8822]%N);
  (txt "lesssim;", [8818]%N);
  (txt "lfisht;", [10620]%N);
  (txt "lfloor;", [8970]%N);
  (txt "lfr;", [120105]%N);
  (txt "lg;", [8822]%N);
  (txt "lgE;", [10897]%N);
  (txt "lhard;", [8637]%N);
  (txt "lharu;", [8636]%N);
  (txt "lharul;", [10602]%N);
  (txt "lhblk;", [9604]%N);
  (txt "ljcy;", [1113]%N);
  (txt "ll;", [8810]%N);
  (txt "llarr;", [8647]%N);
  (txt "llcorner;", [8990]%N);
  (txt "llhard;", [10603]%N);
  (txt "lltri;", [9722]%N);
  (txt "lmidot;", [320]%N);
  (txt "lmoust;", [9136]%N);
  (txt "lmoustache;", [9136]%N);
  (txt "lnE;", [8808]%N);
  (txt "lnap;", [10889]%N);
  (txt "lnapprox;", [10889]%N);
  (txt "lne;", [10887]%N);
  (txt "lneq;", [10887]%N);
  (txt "lneqq;", [8808]%N);
  (txt "lnsim;", [8934]%N);
  (txt "loang;", [10220]%N);
  (txt "loarr;", [8701]%N);
  (txt "lobrk;", [10214]%N);
  (txt "longleftarrow;", [10229]%N);
  (txt "longleftrightarrow;", [10231]%N);
  (txt "longmapsto;", [10236]%N);
  (txt "longrightarrow;", [10230]%N);
  (txt "looparrowleft;", [8619]%N);
  (txt "looparrowright;", [8620]%N);
  (txt "lopar;", [10629]%N);
  (txt "lopf;", [120157]%N);
  (txt "loplus;", [10797]%N);
  (txt "lotimes;", [10804]%N);
  (txt "lowast;", [8727]%N);
  (txt "lowbar;", [95]%N);
  (txt "loz;", [9674]%N);
  (txt "lozenge;", [9674]%N);
  (txt "lozf;", [10731]%N);
  (txt "lpar;", [40]%N);
  (txt "lparlt;", [10643]%N);
  (txt "lrarr;", [8646]%N);
  (txt "lrcorner;", [8991]%N);
  (txt "lrhar;", [8651]%N);
  (txt "lrhard;", [10605]%N);
  (txt "lrm;", [8206]%N);
  (txt "lrtri;", [8895]%N);
  (txt "lsaquo;", [8249]%N);
  (txt "lscr;", [120001]%N);
  (txt "lsh;", [8624]%N);
  (txt "lsim;", [8818]%N);
  (txt "lsime;", [10893]%N);
  (txt "lsimg;", [10895]%N);
  (txt "lsqb;", [91]%N);
  (txt "lsquo;", [8216]%N);
  (txt "lsquor;", [8218]%N);
  (txt "lstrok;", [322]%N);
  (txt "lt;", [60]%N);
  (txt "ltcc;", [10918]%N);
  (txt "ltcir;", [10873]%N);
  (txt "ltdot;", [8918]%N);
  (txt "lthree;", [8907]%N);
  (txt "ltimes;", [8905]%N);
  (txt "ltlarr;", [10614]%N);
  (txt "ltquest;", [10875]%N);
  (txt "ltrPar;", [10646]%N);
  (txt "ltri;", [9667]%N);
  (txt "ltrie;", [8884]%N);
  (txt "ltrif;", [9666]%N);
  (txt "lurdshar;", [10570]%N);
  (txt "luruhar;", [10598]%N);
  (txt "mDDot;", [8762]%N);
  (txt "macr;", [175]%N);
  (txt "male;", [9794]%N);
  (txt "malt;", [10016]%N);
  (txt "maltese;", [10016]%N);
  (txt "map;", [8614]%N);
  (txt "mapsto;", [8614]%N);
  (txt "mapstodown;", [8615]%N);
  (txt "mapstoleft;", [8612]%N);
  (txt "mapstoup;", [8613]%N);
  (txt "marker;", [9646]%N);
  (txt "mcomma;", [10793]%N);
  (txt "mcy;", [1084]%N);
  (txt "mdash;", [8212]%N);
  (txt "measuredangle;", [8737]%N);
  (txt "mfr;", [120106]%N);
  (txt "mho;", [8487]%N);
  (txt "micro;", [181]%N);
  (txt "mid;", [8739]%N);
  (txt "midast;", [42]%N);
  (txt "midcir;", [10992]%N);
  (txt "middot;", [183]%N);
  (txt "minus;", [8722]%N);
  (txt "minusb;", [8863]%N);
  (txt "minusd;", [8760]%N);
  (txt "minusdu;", [10794]%N);
  (txt "mlcp;", [10971]%N);
  (txt "mldr;", [8230]%N);
  (txt "mnplus;", [8723]%N);
  (txt "models;", [8871]%N);
  (txt "mopf;", [120158]%N);
  (txt "mp;", [8723]%N);
  (txt "mscr;", [120002]%N);
  (txt "mstpos;", [8766]%N);
  (txt "mu;", [956]%N);
  (txt "multimap;", [8888]%N);
  (txt "mumap;", [8888]%N);
  (txt "nLeftarrow;", [8653]%N);
  (txt "nLeftrightarrow;", [8654]%N);
  (txt "nRightarrow;", [8655]%N);
  (txt "nVDash;", [8879]%N);
  (txt "nVdash;", [8878]%N);
  (txt "nabla;", [8711]%N);
  (txt "nacute;", [324]%N);
  (txt "nap;", [8777]%N);
  (txt "napos;", [329]%N);
  (txt "napprox;", [8777]%N);
  (txt "natur;", [9838]%N);
  (txt "natural;", [9838]%N);
  (txt "naturals;", [8469]%N);
  (txt "nbsp;", [160]%N);
  (txt "ncap;", [10819]%N);
  (txt "ncaron;", [328]%N);
  (txt "ncedil;", [326]%N);
  (txt "ncong;", [8775]%N);
  (txt "ncup;", [10818]%N);
  (txt "ncy;", [1085]%N);
  (txt "ndash;", [8211]%N);
  (txt "ne;", [8800]%N);
  (txt "neArr;", [8663]%N);
  (txt "nearhk;", [10532]%N);
  (txt "nearr;", [8599]%N);
  (txt "nearrow;", [8599]%N);
  (txt "nequiv;", [8802]%N);
  (txt "nesear;", [10536]%N);
  (txt "nexist;", [8708]%N);
  (txt "nexists;", [8708]%N);
  (txt "nfr;", [120107]%N);
  (txt "nge;", [8817]%N);
  (txt "ngeq;", [8817]%N);
  (txt "ngsim;", [8821]%N);
  (txt "ngt;", [8815]%N);
  (txt "ngtr;", [8815]%N);
  (txt "nhArr;", [8654]%N);
  (txt "nharr;", [8622]%N);
  (txt "nhpar;", [10994]%N);
  (txt "ni;", [8715]%N);
  (txt "nis;", [8956]%N);
  (txt "nisd;", [8954]%N);
  (txt "niv;", [8715]%N);
  (txt "njcy;", [1114]%N);
  (txt "nlArr;", [8653]%N);
  (txt "nlarr;", [8602]%N);
  (txt "nldr;", [8229]%N);
  (txt "nle;", [8816]%N);
  (txt "nleftarrow;", [8602]%N);
  (txt "nleftrightarrow;", [8622]%N);
  (txt "nleq;", [8816]%N);
  (txt "nless;", [8814]%N);
  (txt "nlsim;", [8820]%N);
  (txt "nlt;", [8814]%N);
  (txt "nltri;", [8938]%N);
  (txt "nltrie;", [8940]%N);
  (txt "nmid;", [8740]%N);
  (txt "nopf;", [120159]%N);
  (txt "not;", [172]%N);
  (txt "notin;", [8713]%N);
  (txt "notinva;", [8713]%N);
  (txt "notinvb;", [8951]%N);
  (txt "notinvc;", [8950]%N);
  (txt "notni;", [8716]%N);
  (txt "notniva;", [8716]%N);
  (txt "notnivb;", [8958]%N);
  (txt "notnivc;", [8957]%N);
  (txt "npar;", [8742]%N);
  (txt "nparallel;", [8742]%N);
  (txt "npolint;", [10772]%N);
  (txt "npr;", [8832]%N);
  (txt "nprcue;", [8928]%N);
  (txt "nprec;", [8832]%N);
  (txt "nrArr;", [8655]%N);
  (txt "nrarr;", [8603]%N);
  (txt "nrightarrow;", [8603]%N);
  (txt "nrtri;", [8939]%N);
  (txt "nrtrie;", [8941]%N);
  (txt "nsc;", [8833]%N);
  (txt "nsccue;", [8929]%N);
  (txt "nscr;", [120003]%N);
  (txt "nshortmid;", [8740]%N);
  (txt "nshortparallel;", [8742]%N);
  (txt "nsim;", [8769]%N);
  (txt "nsime;", [8772]%N);
  (txt "nsimeq;", [8772]%N);
  (txt "nsmid;", [8740]%N);
  (txt "nspar;", [8742]%N);
  (txt "nsqsube;", [8930]%N);
  (txt "nsqsupe;", [8931]%N);
  (txt "nsub;", [8836]%N);
  (txt "nsube;", [8840]%N);
  (txt "nsubseteq;", [8840]%N);
  (txt "nsucc;", [8833]%N);
  (txt "nsup;", [8837]%N);
  (txt "nsupe;", [8841]%N);
  (txt "nsupseteq;", [8841]%N);
  (txt "ntgl;", [8825]%N);
  (txt "ntilde;", [241]%N);
  (txt "ntlg;", [8824]%N);
  (txt "ntriangleleft;", [8938]%N);
  (txt "ntrianglelefteq;", [8940]%N);
  (txt "ntriangleright;", [8939]%N);
  (txt "ntrianglerighteq;", [8941]%N);
  (txt "nu;", [957]%N);
  (txt "num;", [35]%N);
  (txt "numero;", [8470]%N);
  (txt "numsp;", [8199]%N);
  (txt "nvDash;", [8877]%N);
  (txt "nvHarr;", [10500]%N);
  (txt "nvdash;", [8876]%N);
  (txt "nvinfin;", [10718]%N);
  (txt "nvlArr;", [10498]%N);
  (txt "nvrArr;", [10499]%N);
  (txt "nwArr;", [8662]%N);
  (txt "nwarhk;", [10531]%N);
  (txt "nwarr;", [8598]%N);
  (txt "nwarrow;", [8598]%N);
  (txt "nwnear;", [10535]%N);
  (txt "oS;", [9416]%N);
  (txt "oacute;", [243]%N);
  (txt "oast;", [8859]%N);
  (txt "ocir;", [8858]%N);
  (txt "ocirc;", [244]%N);
  (txt "ocy;", [1086]%N);
  (txt "odash;", [8861]%N);
  (txt "odblac;", [337]%N);
  (txt "odiv;", [10808]%N);
  (txt "odot;", [8857]%N);
  (txt "odsold;", [10684]%N);
  (txt "oelig;", [339]%N);
  (txt "ofcir;", [10687]%N);
  (txt "ofr;", [120108]%N);
  (txt "ogon;", [731]%N);
  (txt "ograve;", [242]%N);
  (txt "ogt;", [10689]%N);
  (txt "ohbar;", [10677]%N);
  (txt "ohm;", [937]%N);
  (txt "oint;", [8750]%N);
  (txt "olarr;", [8634]%N);
  (txt "olcir;", [10686]%N);
  (txt "olcross;", [10683]%N);
  (txt "oline;", [8254]%N);
  (txt "olt;", [10688]%N);
  (txt "omacr;", [333]%N);
  (txt "omega;", [969]%N);
  (txt "omicron;", [959]%N);
  (txt "omid;", [10678]%N);
  (txt "ominus;", [8854]%N);
  (txt "oopf;", [120160]%N);
  (txt "opar;", [10679]%N);
  (txt "operp;", [10681]%N);
  (txt "oplus;", [8853]%N);
  (txt "or;", [8744]%N);
  (txt "orarr;", [8635]%N);
  (txt "ord;", [10845]%N);
  (txt "order;", [8500]%N);
  (txt "orderof;", [8500]%N);
  (txt "ordf;", [170]%N);
  (txt "ordm;", [186]%N);
  (txt "origof;", [8886]%N);
  (txt "oror;", [10838]%N);
  (txt "orslope;", [10839]%N);
  (txt "orv;", [10843]%N);
  (txt "oscr;", [8500]%N);
  (txt "oslash;", [248]%N);
  (txt "osol;", [8856]%N);
  (txt "otilde;", [245]%N);
  (txt "otimes;", [8855]%N);
  (txt "otimesas;", [10806]%N);
  (txt "ouml;", [246]%N);
  (txt "ovbar;", [9021]%N);
  (txt "par;", [8741]%N);
  (txt "para;", [182]%N);
  (txt "parallel;", [8741]%N);
  (txt "parsim;", [10995]%N);
  (txt "parsl;", [11005]%N);
  (txt "part;", [8706]%N);
  (txt "pcy;", [1087]%N);
  (txt "percnt;", [37]%N);
  (txt "period;", [46]%N);
  (txt "permil;", [8240]%N);
  (txt "perp;", [8869]%N);
  (txt "pertenk;", [8241]%N);
  (txt "pfr;", [120109]%N);
  (txt "phi;", [966]%N);
  (txt "phiv;", [981]%N);
  (txt "phmmat;", [8499]%N);
  (txt "phone;", [9742]%N);
  (txt "pi;", [960]%N);
  (txt "pitchfork;", [8916]%N);
  (txt "piv;", [982]%N);
  (txt "planck;", [8463]%N);
  (txt "planckh;", [8462]%N);
  (txt "plankv;", [8463]%N);
  (txt "plus;", [43]%N);
  (txt "plusacir;", [10787]%N);
  (txt "plusb;", [8862]%N);
  (txt "pluscir;", [10786]%N);
  (txt "plusdo;", [8724]%N);
  (txt "plusdu;", [10789]%N);
  (txt "pluse;", [10866]%N);
  (txt "plusmn;", [177]%N);
  (txt "plussim;", [10790]%N);
  (txt "plustwo;", [10791]%N);
  (txt "pm;", [177]%N);
  (txt "pointint;", [10773]%N);
  (txt "popf;", [120161]%N);
  (txt "pound;", [163]%N);
  (txt "pr;", [8826]%N);
  (txt "prE;", [10931]%N);
  (txt "prap;", [10935]%N);
  (txt "prcue;", [8828]%N);
  (txt "pre;", [10927]%N);
  (txt "prec;", [8826]%N);
  (txt "precapprox;", [10935]%N);
  (txt "preccurlyeq;", [8828]%N);
  (txt "preceq;", [10927]%N);
  (txt "precnapprox;", [10937]%N);
  (txt "precneqq;", [10933]%N);
  (txt "precnsim;", [8936]%N);
  (txt "precsim;", [8830]%N);
  (txt "prime;", [8242]%N);
  (txt "primes;", [8473]%N);
  (txt "prnE;", [10933]%N);
  (txt "prnap;", [10937]%N);
  (txt "prnsim;", [8936]%N);
  (txt "prod;", [8719]%N);
  (txt "profalar;", [9006]%N);
  (txt "profline;", [8978]%N);
  (txt "profsurf;", [8979]%N);
  (txt "prop;", [8733]%N);
  (txt "propto;", [8733]%N);
  (txt "prsim;", [8830]%N);
  (txt "prurel;", [8880]%N);
  (txt "pscr;", [120005]%N);
  (txt "psi;", [968]%N);
  (txt "puncsp;", [8200]%N);
  (txt "qfr;", [120110]%N);
  (txt "qint;", [10764]%N);
  (txt "qopf;", [120162]%N);
  (txt "qprime;", [8279]%N);
  (txt "qscr;", [120006]%N);
  (txt "quaternions;", [8461]%N);
  (txt "quatint;", [10774]%N);
  (txt "quest;", [63]%N);
  (txt "questeq;", [8799]%N);
  (txt "quot;", [34]%N);
  (txt "rAarr;", [8667]%N);
  (txt "rArr;", [8658]%N);
  (txt "rAtail;", [10524]%N);
  (txt "rBarr;", [10511]%N);
  (txt "rHar;", [10596]%N);
  (txt "racute;", [341]%N);
  (txt "radic;", [8730]%N);
  (txt "raemptyv;", [10675]%N);
  (txt "rang;", [10217]%N);
  (txt "rangd;", [10642]%N);
  (txt "range;", [10661]%N);
  (txt "rangle;", [10217]%N);
  (txt "raquo;", [187]%N);
  (txt "rarr;", [8594]%N);
  (txt "rarrap;", [10613]%N);
  (txt "rarrb;", [8677]%N);
  (txt "rarrbfs;", [10528]%N);
  (txt "rarrc;", [10547]%N);
  (txt "rarrfs;", [10526]%N);
  (txt "rarrhk;", [8618]%N);
  (txt "rarrlp;", [8620]%N);
  (txt "rarrpl;", [10565]%N);
  (txt "rarrsim;", [10612]%N);
  (txt "rarrtl;", [8611]%N);
  (txt "rarrw;", [8605]%N);
  (txt "ratail;", [10522]%N);
  (txt "ratio;", [8758]%N);
  (txt "rationals;", [8474]%N);
  (txt "rbarr;", [10509]%N);
  (txt "rbbrk;", [10099]%N);
  (txt "rbrace;", [125]%N);
  (txt "rbrack;", [93]%N);
  (txt "rbrke;", [10636]%N);
  (txt "rbrksld;", [10638]%N);
  (txt "rbrkslu;", [10640]%N);
  (txt "rcaron;", [345]%N);
  (txt "rcedil;", [343]%N);
  (txt "rceil;", [8969]%N);
  (txt "rcub;", [125]%N);
  (txt "rcy;", [1088]%N);
  (txt "rdca;", [10551]%N);
  (txt "rdldhar;", [10601]%N);
  (txt "rdquo;", [8221]%N);
  (txt "rdquor;", [8221]%N);
  (txt "rdsh;", [8627]%N);
  (txt "real;", [8476]%N);
  (txt "realine;", [8475]%N);
  (txt "realpart;", [8476]%N);
  (txt "reals;", [8477]%N);
  (txt "rect;", [9645]%N);
  (txt "reg;", [174]%N);
  (txt "rfisht;", [10621]%N);
  (txt "rfloor;", [8971]%N);
  (txt "rfr;", [120111]%N);
  (txt "rhard;", [8641]%N);
  (txt "rharu;", [8640]%N);
  (txt "rharul;", [10604]%N);
  (txt "rho;", [961]%N);
  (txt "rhov;", [1009]%N);
  (txt "rightarrow;", [8594]%N);
  (txt "rightarrowtail;", [8611]%N);
  (txt "rightharpoondown;", [8641]%N);
  (txt "rightharpoonup;", [8640]%N);
  (txt "rightleftarrows;", [8644]%N);
  (txt "rightleftharpoons;", [8652]%N);
  (txt "rightrightarrows;", [8649]%N);
  (txt "rightsquigarrow;", [8605]%N);
  (txt "rightthreetimes;", [8908]%N);
  (txt "ring;", [730]%N);
  (txt "risingdotseq;", [8787]%N);
  (txt "rlarr;", [8644]%N);
  (txt "rlhar;", [8652]%N);
  (txt "rlm;", [8207]%N);
  (txt "rmoust;", [9137]%N);
  (txt "rmoustache;", [9137]%N);
  (txt "rnmid;", [10990]%N);
  (txt "roang;", [10221]%N);
  (txt "roarr;", [8702]%N);
  (txt "robrk;", [10215]%N);
  (txt "ropar;", [10630]%N);
  (txt "ropf;", [120163]%N);
  (txt "roplus;", [10798]%N);
  (txt "rotimes;", [10805]%N);
  (txt "rpar;", [41]%N);
  (txt "rpargt;", [10644]%N);
  (txt "rppolint;", [10770]%N);
  (txt "rrarr;", [8649]%N);
  (txt "rsaquo;", [8250]%N);
  (txt "rscr;", [120007]%N);
  (txt "rsh;", [8625]%N);
  (txt "rsqb;", [93]%N);
  (txt "rsquo;", [8217]%N);
  (txt "rsquor;", [8217]%N);
  (txt "rthree;", [8908]%N);
  (txt "rtimes;", [8906]%N);
  (txt "rtri;", [9657]%N);
  (txt "rtrie;", [8885]%N);
  (txt "rtrif;", [9656]%N);
  (txt "rtriltri;", [10702]%N);
  (txt "ruluhar;", [10600]%N);
  (txt "rx;", [8478]%N);
  (txt "sacute;", [347]%N);
  (txt "sbquo;", [8218]%N);
  (txt "sc;", [8827]%N);
  (txt "scE;", [10932]%N);
  (txt "scap;", [10936]%N);
  (txt "scaron;", [353]%N);
  (txt "sccue;", [8829]%N);
  (txt "sce;", [10928]%N);
  (txt "scedil;", [351]%N);
  (txt "scirc;", [349]%N);
  (txt "scnE;", [10934]%N);
  (txt "scnap;", [10938]%N);
  (txt "scnsim;", [8937]%N);
  (txt "scpolint;", [10771]%N);
  (txt "scsim;", [8831]%N);
  (txt "scy;", [1089]%N);
  (txt "sdot;", [8901]%N);
  (txt "sdotb;", [8865]%N);
  (txt "sdote;", [10854]%N);
  (txt "seArr;", [8664]%N);
  (txt "searhk;", [10533]%N);
  (txt "searr;", [8600]%N);
  (txt "searrow;", [8600]%N);
  (txt "sect;", [167]%N);
  (txt "semi;", [59]%N);
  (txt "seswar;", [10537]%N);
  (txt "setminus;", [8726]%N);
  (txt "setmn;", [8726]%N);
  (txt "sext;", [10038]%N);
  (txt "sfr;", [120112]%N);
  (txt "sfrown;", [8994]%N);
  (txt "sharp;", [9839]%N);
  (txt "shchcy;", [1097]%N);
  (txt "shcy;", [1096]%N);
  (txt "shortmid;", [8739]%N);
  (txt "shortparallel;", [8741]%N);
  (txt "shy;", [173]%N);
  (txt "sigma;", [963]%N);
  (txt "sigmaf;", [962]%N);
  (txt "sigmav;", [962]%N);
  (txt "sim;", [8764]%N);
  (txt "simdot;", [10858]%N);
  (txt "sime;", [8771]%N);
  (txt "simeq;", [8771]%N);
  (txt "simg;", [10910]%N);
  (txt "simgE;", [10912]%N);
  (txt "siml;", [10909]%N);
  (txt "simlE;", [10911]%N);
  (txt "simne;", [8774]%N);
  (txt "simplus;", [10788]%N);
  (txt "simrarr;", [10610]%N);
  (txt "slarr;", [8592]%N);
  (txt "smallsetminus;", [8726]%N);
  (txt "smashp;", [10803]%N);
  (txt "smeparsl;", [10724]%N);
  (txt "smid;", [8739]%N);
  (txt "smile;", [8995]%N);
  (txt "smt;", [10922]%N);
  (txt "smte;", [10924]%N);
  (txt "softcy;", [1100]%N);
  (txt "sol;", [47]%N);
  (txt "solb;", [10692]%N);
  (txt "solbar;", [9023]%N);
  (txt "sopf;", [120164]%N);
  (txt "spades;", [9824]%N);
  (txt "spadesuit;", [9824]%N);
  (txt "spar;", [8741]%N);
  (txt "sqcap;", [8851]%N);
  (txt "sqcup;", [8852]%N);
  (txt "sqsub;", [8847]%N);
  (txt "sqsube;", [8849]%N);
  (txt "sqsubset;", [8847]%N);
  (txt "sqsubseteq;", [8849]%N);
  (txt "sqsup;", [8848]%N);
  (txt "sqsupe;", [8850]%N);
  (txt "sqsupset;", [8848]%N);
  (txt "sqsupseteq;", [8850]%N);
  (txt "squ;", [9633]%N);
  (txt "square;", [9633]%N);
  (txt "squarf;", [9642]%N);
  (txt "squf;", [9642]%N);
  (txt "srarr;", [8594]%N);
  (txt "sscr;", [120008]%N);
  (txt "ssetmn;", [8726]%N);
  (txt "ssmile;", [8995]%N);
  (txt "sstarf;", [8902]%N);
  (txt "star;", [9734]%N);
  (txt "starf;", [9733]%N);
  (txt "straightepsilon;", [1013]%N);
  (txt "straightphi;", [981]%N);
  (txt "strns;", [175]%N);
  (txt "sub;", [8834]%N);
  (txt "subE;", [10949]%N);
  (txt "subdot;", [10941]%N);
  (txt "sube;", [8838]%N);
  (txt "subedot;", [10947]%N);
  (txt "submult;", [10945]%N);
  (txt "subnE;", [10955]%N);
  (txt "subne;", [8842]%N);
  (txt "subplus;", [10943]%N);
  (txt "subrarr;", [10617]%N);
  (txt "subset;", [8834]%N);
  (txt "subseteq;", [8838]%N);
  (txt "subseteqq;", [10949]%N);
  (txt "subsetneq;", [8842]%N);
  (txt "subsetneqq;", [10955]%N);
  (txt "subsim;", [10951]%N);
  (txt "subsub;", [10965]%N);
  (txt "subsup;", [10963]%N);
  (txt "succ;", [8827]%N);
  (txt "succapprox;", [10936]%N);
  (txt "succcurlyeq;", [8829]%N);
  (txt "succeq;", [10928]%N);
  (txt "succnapprox;", [10938]%N);
  (txt "succneqq;", [10934]%N);
  (txt "succnsim;", [8937]%N);
  (txt "succsim;", [8831]%N);
  (txt "sum;", [8721]%N);
  (txt "sung;", [9834]%N);
  (txt "sup;", [8835]%N);
  (txt "sup1;", [185]%N);
  (txt "sup2;", [178]%N);
  (txt "sup3;", [179]%N);
  (txt "supE;", [10950]%N);
  (txt "supdot;", [10942]%N);
  (txt "supdsub;", [10968]%N);
  (txt "supe;", [8839]%N);
  (txt "supedot;", [10948]%N);
  (txt "suphsol;", [10185]%N);
  (txt "suphsub;", [10967]%N);
  (txt "suplarr;", [10619]%N);
  (txt "supmult;", [10946]%N);
  (txt "supnE;", [10956]%N);
  (txt "supne;", [8843]%N);
  (txt "supplus;", [10944]%N);
  (txt "supset;", [8835]%N);
  (txt "supseteq;", [8839]%N);
  (txt "supseteqq;", [10950]%N);
  (txt "supsetneq;", [8843]%N);
  (txt "supsetneqq;", [10956]%N);
  (txt "supsim;", [10952]%N);
  (txt "supsub;", [10964]%N);
  (txt "supsup;", [10966]%N);
  (txt "swArr;", [8665]%N);
  (txt "swarhk;", [10534]%N);
  (txt "swarr;", [8601]%N);
  (txt "swarrow;", [8601]%N);
  (txt "swnwar;", [10538]%N);
  (txt "szlig;", [223]%N);
  (txt "target;", [8982]%N);
  (txt "tau;", [964]%N);
  (txt "tbrk;", [9140]%N);
  (txt "tcaron;", [357]%N);
  (txt "tcedil;", [355]%N);
  (txt "tcy;", [1090]%N);
  (txt "tdot;", [8411]%N);
  (txt "telrec;", [8981]%N);
  (txt "tfr;", [120113]%N);
  (txt "there4;", [8756]%N);
  (txt "therefore;", [8756]%N);
  (txt "theta;", [952]%N);
  (txt "thetasym;", [977]%N);
  (txt "thetav;", [977]%N);
  (txt "thickapprox;", [8776]%N);
  (txt "thicksim;", [8764]%N);
  (txt "thinsp;", [8201]%N);
  (txt "thkap;", [8776]%N);
  (txt "thksim;", [8764]%N);
  (txt "thorn;", [254]%N);
  (txt "tilde;", [732]%N);
  (txt "times;", [215]%N);
  (txt "timesb;", [8864]%N);
  (txt "timesbar;", [10801]%N);
  (txt "timesd;", [10800]%N);
  (txt "tint;", [8749]%N);
  (txt "toea;", [10536]%N);
  (txt "top;", [8868]%N);
  (txt "topbot;", [9014]%N);
  (txt "topcir;", [10993]%N);
  (txt "topf;", [120165]%N);
  (txt "topfork;", [10970]%N);
  (txt "tosa;", [10537]%N);
  (txt "tprime;", [8244]%N);
  (txt "trade;", [8482]%N);
  (txt "triangle;", [9653]%N);
  (txt "triangledown;", [9663]%N);
  (txt "triangleleft;", [9667]%N);
  (txt "trianglelefteq;", [8884]%N);
  (txt "triangleq;", [8796]%N);
  (txt "triangleright;", [9657]%N);
  (txt "trianglerighteq;", [8885]%N);
  (txt "tridot;", [9708]%N);
  (txt "trie;", [8796]%N);
  (txt "triminus;", [10810]%N);
  (txt "triplus;", [10809]%N);
  (txt "trisb;", [10701]%N);
  (txt "tritime;", [10811]%N);
  (txt "trpezium;", [9186]%N);
  (txt "tscr;", [120009]%N);
  (txt "tscy;", [1094]%N);
  (txt "tshcy;", [1115]%N);
  (txt "tstrok;", [359]%N);
  (txt "twixt;", [8812]%N);
  (txt "twoheadleftarrow;", [8606]%N);
  (txt "twoheadrightarrow;", [8608]%N);
  (txt "uArr;", [8657]%N);
  (txt "uHar;", [10595]%N);
  (txt "uacute;", [250]%N);
  (txt "uarr;", [8593]%N);
  (txt "ubrcy;", [1118]%N);
  (txt "ubreve;", [365]%N);
  (txt "ucirc;", [251]%N);
  (txt "ucy;", [1091]%N);
  (txt "udarr;", [8645]%N);
  (txt "udblac;", [369]%N);
  (txt "udhar;", [10606]%N);
  (txt "ufisht;", [10622]%N);
  (txt "ufr;", [120114]%N);
  (txt "ugrave;", [249]%N);
  (txt "uharl;", [8639]%N);
  (txt "uharr;", [8638]%N);
  (txt "uhblk;", [9600]%N);
  (txt "ulcorn;", [8988]%N);
  (txt "ulcorner;", [8988]%N);
  (txt "ulcrop;", [8975]%N);
  (txt "ultri;", [9720]%N);
  (txt "umacr;", [363]%N);
  (txt "uml;", [168]%N);
  (txt "uogon;", [371]%N);
  (txt "uopf;", [120166]%N);
  (txt "uparrow;", [8593]%N);
  (txt "updownarrow;", [8597]%N);
  (txt "upharpoonleft;", [8639]%N);
  (txt "upharpoonright;", [8638]%N);
  (txt "uplus;", [8846]%N);
  (txt "upsi;", [965]%N);
  (txt "upsih;", [978]%N);
  (txt "upsilon;", [965]%N);
  (txt "upuparrows;", [8648]%N);
  (txt "urcorn;", [8989]%N);
  (txt "urcorner;", [8989]%N);
  (txt "urcrop;", [8974]%N);
  (txt "uring;", [367]%N);
  (txt "urtri;", [9721]%N);
  (txt "uscr;", [120010]%N);
  (txt "utdot;", [8944]%N);
  (txt "utilde;", [361]%N);
  (txt "utri;", [9653]%N);
  (txt "utrif;", [9652]%N);
  (txt "uuarr;", [8648]%N);
  (txt "uuml;", [252]%N);
  (txt "uwangle;", [10663]%N);
  (txt "vArr;", [8661]%N);
  (txt "vBar;", [10984]%N);
  (txt "vBarv;", [10985]%N);
  (txt "vDash;", [8872]%N);
  (txt "vangrt;", [10652]%N);
  (txt "varepsilon;", [1013]%N);
  (txt "varkappa;", [1008]%N);
  (txt "varnothing;", [8709]%N);
  (txt "varphi;", [981]%N);
  (txt "varpi;", [982]%N);
  (txt "varpropto;", [8733]%N);
  (txt "varr;", [8597]%N);
  (txt "varrho;", [1009]%N);
  (txt "varsigma;", [962]%N);
  (txt "vartheta;", [977]%N);
  (txt "vartriangleleft;", [8882]%N);
  (txt "vartriangleright;", [8883]%N);
  (txt "vcy;", [1074]%N);
  (txt "vdash;", [8866]%N);
  (txt "vee;", [8744]%N);
  (txt "veebar;", [8891]%N);
  (txt "veeeq;", [8794]%N);
  (txt "vellip;", [8942]%N);
  (txt "verbar;", [124]%N);
  (txt "vert;", [124]%N);
  (txt "vfr;", [120115]%N);
  (txt "vltri;", [8882]%N);
  (txt "vopf;", [120167]%N);
  (txt "vprop;", [8733]%N);
  (txt "vrtri;", [8883]%N);
  (txt "vscr;", [120011]%N);
  (txt "vzigzag;", [10650]%N);
  (txt "wcirc;", [373]%N);
  (txt "wedbar;", [10847]%N);
  (txt "wedge;", [8743]%N);
  (txt "wedgeq;", [8793]%N);
  (txt "weierp;", [8472]%N);
  (txt "wfr;", [120116]%N);
  (txt "wopf;", [120168]%N);
  (txt "wp;", [8472]%N);
  (txt "wr;", [8768]%N);
  (txt "wreath;", [8768]%N);
  (txt "wscr;", [120012]%N);
  (txt "xcap;", [8898]%N);
  (txt "xcirc;", [9711]%N);
  (txt "xcup;", [8899]%N);
  (txt "xdtri;", [9661]%N);
  (txt "xfr;", [120117]%N);
  (txt "xhArr;", [10234]%N);
  (txt "xharr;", [10231]%N);
  (txt "xi;", [958]%N);
  (txt "xlArr;", [10232]%N);
  (txt "xlarr;", [10229]%N);
  (txt "xmap;", [10236]%N);
  (txt "xnis;", [8955]%N);
  (txt "xodot;", [10752]%N);
  (txt "xopf;", [120169]%N);
  (txt "xoplus;", [10753]%N);
  (txt "xotime;", [10754]%N);
  (txt "xrArr;", [10233]%N);
  (txt "xrarr;", [10230]%N);
  (txt "xscr;", [120013]%N);
  (txt "xsqcup;", [10758]%N);
  (txt "xuplus;", [10756]%N);
  (txt "xutri;", [9651]%N);
  (txt "xvee;", [8897]%N);
  (txt "xwedge;", [8896]%N);
  (txt "yacute;", [253]%N);
  (txt "yacy;", [1103]%N);
  (txt "ycirc;", [375]%N);
  (txt "ycy;", [1099]%N);
  (txt "yen;", [165]%N);
  (txt "yfr;", [120118]%N);
  (txt "yicy;", [1111]%N);
  (txt "yopf;", [120170]%N);
  (txt "yscr;", [120014]%N);
  (txt "yucy;", [1102]%N);
  (txt "yuml;", [255]%N);
  (txt "zacute;", [378]%N);
  (txt "zcaron;", [382]%N);
  (txt "zcy;", [1079]%N);
  (txt "zdot;", [380]%N);
  (txt "zeetrf;", [8488]%N);
  (txt "zeta;", [950]%N);
  (txt "zfr;", [120119]%N);
  (txt "zhcy;", [1078]%N);
  (txt "zigrarr;", [8669]%N);
  (txt "zopf;", [120171]%N);
  (txt "zscr;", [120015]%N);
  (txt "zwj;", [8205]%N);
  (txt "zwnj;", [8204]%N);
  (txt "AElig", [198]%N);
  (txt "AMP", [38]%N);
  (txt "Aacute", [193]%N);
  (txt "Acirc", [194]%N);
  (txt "Agrave", [192]%N);
  (txt "Aring", [197]%N);
  (txt "Atilde", [195]%N);
  (txt "Auml", [196]%N);
  (txt "COPY", [169]%N);
  (txt "Ccedil", [199]%N);
  (txt "ETH", [208]%N);
  (txt "Eacute", [201]%N);
  (txt "Ecirc", [202]%N);
  (txt "Egrave", [200]%N);
  (txt "Euml", [203]%N);
  (txt "GT", [62]%N);
  (txt "Iacute", [205]%N);
  (txt "Icirc", [206]%N);
  (txt "Igrave", [204]%N);
  (txt "Iuml", [207]%N);
  (txt "LT", [60]%N);
  (txt "Ntilde", [209]%N);
  (txt "Oacute", [211]%N);
  (txt "Ocirc", [212]%N);
  (txt "Ograve", [210]%N);
  (txt "Oslash", [216]%N);
  (txt "Otilde", [213]%N);
  (txt "Ouml", [214]%N);
  (txt "QUOT", [34]%N);
  (txt "REG", [174]%N);
  (txt "THORN", [222]%N);
  (txt "Uacute", [218]%N);
  (txt "Ucirc", [219]%N);
  (txt "Ugrave", [217]%N);
  (txt "Uuml", [220]%N);
  (txt "Yacute", [221]%N);
  (txt "aacute", [225]%N);
  (txt "acirc", [226]%N);
  (txt "acute", [180]%N);
  (txt "aelig", [230]%N);
  (txt "agrave", [224]%N);
  (txt "amp", [38]%N);
  (txt "aring", [229]%N);
  (txt "atilde", [227]%N);
  (txt "auml", [228]%N);
  (txt "brvbar", [166]%N);
  (txt "ccedil", [231]%N);
  (txt "cedil", [184]%N);
  (txt "cent", [162]%N);
  (txt "copy", [169]%N);
  (txt "curren", [164]%N);
  (txt "deg", [176]%N);
  (txt "divide", [247]%N);
  (txt "eacute", [233]%N);
  (txt "ecirc", [234]%N);
  (txt "egrave", [232]%N);
  (txt "eth", [240]%N);
  (txt "euml", [235]%N);
  (txt "frac12", [189]%N);
  (txt "frac14", [188]%N);
  (txt "frac34", [190]%N);
  (txt "gt", [62]%N);
  (txt "iacute", [237]%N);
  (txt "icirc", [238]%N);
  (txt "iexcl", [161]%N);
  (txt "igrave", [236]%N);
  (txt "iquest", [191]%N);
  (txt "iuml", [239]%N);
  (txt "laquo", [171]%N);
  (txt "lt", [60]%N);
  (txt "macr", [175]%N);
  (txt "micro", [181]%N);
  (txt "middot", [183]%N);
  (txt "nbsp", [160]%N);
  (txt "not", [172]%N);
  (txt "ntilde", [241]%N);
  (txt "oacute", [243]%N);
  (txt "ocirc", [244]%N);
  (txt "ograve", [242]%N);
  (txt "ordf", [170]%N);
  (txt "ordm", [186]%N);
  (txt "oslash", [248]%N);
  (txt "otilde", [245]%N);
  (txt "ouml", [246]%N);
  (txt "para", [182]%N);
  (txt "plusmn", [177]%N);
  (txt "pound", [163]%N);
  (txt "quot", [34]%N);
  (txt "raquo", [187]%N);
  (txt "reg", [174]%N);
  (txt "sect", [167]%N);
  (txt "shy", [173]%N);
  (txt "sup1", [185]%N);
  (txt "sup2", [178]%N);
  (txt "sup3", [179]%N);
  (txt "szlig", [223]%N);
  (txt "thorn", [254]%N);
  (txt "times", [215]%N);
  (txt "uacute", [250]%N);
  (txt "ucirc", [251]%N);
  (txt "ugrave", [249]%N);
  (txt "uml", [168]%N);
  (txt "uuml", [252]%N);
  (txt "yacute", [253]%N);
  (txt "yen", [165]%N);
  (txt "yuml", [255]%N);
  (txt "nLt;", [8810; 8402]%N);
  (txt "nGt;", [8811; 8402]%N);
  (txt "NotEqualTilde;", [8770; 824]%N);
  (txt "NotGreaterFullEqual;", [8807; 824]%N);
  (txt "NotGreaterGreater;", [8811; 824]%N);
  (txt "NotGreaterSlantEqual;", [10878; 824]%N);
  (txt "NotHumpDownHump;", [8782; 824]%N);
  (txt "NotHumpEqual;", [8783; 824]%N);
  (txt "NotLeftTriangleBar;", [10703; 824]%N);
  (txt "NotLessLess;", [8810; 824]%N);
  (txt "NotLessSlantEqual;", [10877; 824]%N);
  (txt "NotNestedGreaterGreater;", [10914; 824]%N);
  (txt "NotNestedLessLess;", [10913; 824]%N);
  (txt "NotPrecedesEqual;", [10927; 824]%N);
  (txt "NotRightTriangleBar;", [10704; 824]%N);
  (txt "NotSquareSubset;", [8847; 824]%N);
  (txt "NotSquareSuperset;", [8848; 824]%N);
  (txt "NotSubset;", [8834; 8402]%N);
  (txt "NotSucceedsEqual;", [10928; 824]%N);
  (txt "NotSucceedsTilde;", [8831; 824]%N);
  (txt "NotSuperset;", [8835; 8402]%N);
  (txt "ThickSpace;", [8287; 8202]%N);
  (txt "acE;", [8766; 819]%N);
  (txt "bne;", [61; 8421]%N);
  (txt "bnequiv;", [8801; 8421]%N);
  (txt "caps;", [8745; 65024]%N);
  (txt "cups;", [8746; 65024]%N);
  (txt "fjlig;", [102; 106]%N);
  (txt "gesl;", [8923; 65024]%N);
  (txt "gvertneqq;", [8809; 65024]%N);
  (txt "gvnE;", [8809; 65024]%N);
  (txt "lates;", [10925; 65024]%N);
  (txt "lesg;", [8922; 65024]%N);
  (txt "lvertneqq;", [8808; 65024]%N);
  (txt "lvnE;", [8808; 65024]%N);
  (txt "nGg;", [8921; 824]%N);
  (txt "nGtv;", [8811; 824]%N);
  (txt "nLl;", [8920; 824]%N);
  (txt "nLtv;", [8810; 824]%N);
  (txt "nang;", [8736; 8402]%N);
  (txt "napE;", [10864; 824]%N);
  (txt "napid;", [8779; 824]%N);
  (txt "nbump;", [8782; 824]%N);
  (txt "nbumpe;", [8783; 824]%N);
  (txt "ncongdot;", [10861; 824]%N);
  (txt "nedot;", [8784; 824]%N);
  (txt "nesim;", [8770; 824]%N);
  (txt "ngE;", [8807; 824]%N);
  (txt "ngeqq;", [8807; 824]%N);
  (txt "ngeqslant;", [10878; 824]%N);
  (txt "nges;", [10878; 824]%N);
  (txt "nlE;", [8806; 824]%N);
  (txt "nleqq;", [8806; 824]%N);
  (txt "nleqslant;", [10877; 824]%N);
  (txt "nles;", [10877; 824]%N);
  (txt "notinE;", [8953; 824]%N);
  (txt "notindot;", [8949; 824]%N);
  (txt "nparsl;", [11005; 8421]%N);
  (txt "npart;", [8706; 824]%N);
  (txt "npre;", [10927; 824]%N);
  (txt "npreceq;", [10927; 824]%N);
  (txt "nrarrc;", [10547; 824]%N);
  (txt "nrarrw;", [8605; 824]%N);
  (txt "nsce;", [10928; 824]%N);
  (txt "nsubE;", [10949; 824]%N);
  (txt "nsubset;", [8834; 8402]%N);
  (txt "nsubseteqq;", [10949; 824]%N);
  (txt "nsucceq;", [10928; 824]%N);
  (txt "nsupE;", [10950; 824]%N);
  (txt "nsupset;", [8835; 8402]%N);
  (txt "nsupseteqq;", [10950; 824]%N);
  (txt "nvap;", [8781; 8402]%N);
  (txt "nvge;", [8805; 8402]%N);
  (txt "nvgt;", [62; 8402]%N);
  (txt "nvle;", [8804; 8402]%N);
  (txt "nvlt;", [60; 8402]%N);
  (txt "nvltrie;", [8884; 8402]%N);
  (txt "nvrtrie;", [8885; 8402]%N);
  (txt "nvsim;", [8764; 8402]%N);
  (txt "race;", [8765; 817]%N);
  (txt "smtes;", [10924; 65024]%N);
  (txt "sqcaps;", [8851; 65024]%N);
  (txt "sqcups;", [8852; 65024]%N);
  (txt "varsubsetneq;", [8842; 65024]%N);
  (txt "varsubsetneqq;", [10955; 65024]%N);
  (txt "varsupsetneq;", [8843; 65024]%N);
  (txt "varsupsetneqq;", [10956; 65024]%N);
  (txt "vnsub;", [8834; 8402]%N);
  (txt "vnsup;", [8835; 8402]%N);
  (txt "vsubnE;", [10955; 65024]%N);
  (txt "vsubne;", [8842; 65024]%N);
  (txt "vsupnE;", [10956; 65024]%N);
  (txt "vsupne;", [8843; 65024]%N)
].
