(** Token constants of y.go:75-199, generated by tools/gen_tables.py. *)
From Coq Require Import ZArith.
Local Open Scope Z_scope.

(** y.go:75 *)
Definition T_WHITESPACE : Z := 57346.
(** y.go:76 *)
Definition T_NEWLINE : Z := 57347.
(** y.go:77 *)
Definition T_TYPEORMODULEREFERENCE : Z := 57348.
(** y.go:78 *)
Definition T_VALUEIDENTIFIER : Z := 57349.
(** y.go:79 *)
Definition T_NUMBER : Z := 57350.
(** y.go:80 *)
Definition T_BSTRING : Z := 57351.
(** y.go:81 *)
Definition T_XMLBSTRING : Z := 57352.
(** y.go:82 *)
Definition T_HSTRING : Z := 57353.
(** y.go:83 *)
Definition T_XMLHSTRING : Z := 57354.
(** y.go:84 *)
Definition T_CSTRING : Z := 57355.
(** y.go:85 *)
Definition T_XMLCSTRING : Z := 57356.
(** y.go:86 *)
Definition T_ASSIGNMENT : Z := 57357.
(** y.go:87 *)
Definition T_RANGE_SEPARATOR : Z := 57358.
(** y.go:88 *)
Definition T_ELLIPSIS : Z := 57359.
(** y.go:89 *)
Definition T_LEFT_VERSION_BRACKETS : Z := 57360.
(** y.go:90 *)
Definition T_RIGHT_VERSION_BRACKETS : Z := 57361.
(** y.go:91 *)
Definition T_XML_END_TAG_START : Z := 57362.
(** y.go:92 *)
Definition T_XML_SINGLE_START_END : Z := 57363.
(** y.go:93 *)
Definition T_XML_BOOLEAN_TRUE : Z := 57364.
(** y.go:94 *)
Definition T_XML_BOOLEAN_FALSE : Z := 57365.
(** y.go:95 *)
Definition T_XMLASN1TYPENAME : Z := 57366.
(** y.go:96 *)
Definition T_EXPONENT : Z := 57367.
(** y.go:97 *)
Definition T_OPEN_CURLY : Z := 57368.
(** y.go:98 *)
Definition T_CLOSE_CURLY : Z := 57369.
(** y.go:99 *)
Definition T_LESS : Z := 57370.
(** y.go:100 *)
Definition T_GREATER : Z := 57371.
(** y.go:101 *)
Definition T_COMMA : Z := 57372.
(** y.go:102 *)
Definition T_DOT : Z := 57373.
(** y.go:103 *)
Definition T_OPEN_ROUND : Z := 57374.
(** y.go:104 *)
Definition T_CLOSE_ROUND : Z := 57375.
(** y.go:105 *)
Definition T_OPEN_SQUARE : Z := 57376.
(** y.go:106 *)
Definition T_CLOSE_SQUARE : Z := 57377.
(** y.go:107 *)
Definition T_MINUS : Z := 57378.
(** y.go:108 *)
Definition T_COLON : Z := 57379.
(** y.go:109 *)
Definition T_EQUALS : Z := 57380.
(** y.go:110 *)
Definition T_QUOTATION_MARK : Z := 57381.
(** y.go:111 *)
Definition T_APOSTROPHE : Z := 57382.
(** y.go:112 *)
Definition T_SPACE : Z := 57383.
(** y.go:113 *)
Definition T_SEMICOLON : Z := 57384.
(** y.go:114 *)
Definition T_AT : Z := 57385.
(** y.go:115 *)
Definition T_PIPE : Z := 57386.
(** y.go:116 *)
Definition T_EXCLAMATION : Z := 57387.
(** y.go:117 *)
Definition T_CARET : Z := 57388.
(** y.go:118 *)
Definition T_ABSENT : Z := 57389.
(** y.go:119 *)
Definition T_ENCODED : Z := 57390.
(** y.go:120 *)
Definition T_INTEGER : Z := 57391.
(** y.go:121 *)
Definition T_RELATIVE_OID : Z := 57392.
(** y.go:122 *)
Definition T_ABSTRACT_SYNTAX : Z := 57393.
(** y.go:123 *)
Definition T_END : Z := 57394.
(** y.go:124 *)
Definition T_INTERSECTION : Z := 57395.
(** y.go:125 *)
Definition T_SEQUENCE : Z := 57396.
(** y.go:126 *)
Definition T_ALL : Z := 57397.
(** y.go:127 *)
Definition T_ENUMERATED : Z := 57398.
(** y.go:128 *)
Definition T_ISO646String : Z := 57399.
(** y.go:129 *)
Definition T_SET : Z := 57400.
(** y.go:130 *)
Definition T_APPLICATION : Z := 57401.
(** y.go:131 *)
Definition T_EXCEPT : Z := 57402.
(** y.go:132 *)
Definition T_MAX : Z := 57403.
(** y.go:133 *)
Definition T_SIZE : Z := 57404.
(** y.go:134 *)
Definition T_AUTOMATIC : Z := 57405.
(** y.go:135 *)
Definition T_EXPLICIT : Z := 57406.
(** y.go:136 *)
Definition T_MIN : Z := 57407.
(** y.go:137 *)
Definition T_STRING : Z := 57408.
(** y.go:138 *)
Definition T_BEGIN : Z := 57409.
(** y.go:139 *)
Definition T_EXPORTS : Z := 57410.
(** y.go:140 *)
Definition T_MINUS_INFINITY : Z := 57411.
(** y.go:141 *)
Definition T_SYNTAX : Z := 57412.
(** y.go:142 *)
Definition T_BIT : Z := 57413.
(** y.go:143 *)
Definition T_EXTENSIBILITY : Z := 57414.
(** y.go:144 *)
Definition T_NULL : Z := 57415.
(** y.go:145 *)
Definition T_T61String : Z := 57416.
(** y.go:146 *)
Definition T_BMPString : Z := 57417.
(** y.go:147 *)
Definition T_EXTERNAL : Z := 57418.
(** y.go:148 *)
Definition T_NumericString : Z := 57419.
(** y.go:149 *)
Definition T_TAGS : Z := 57420.
(** y.go:150 *)
Definition T_BOOLEAN : Z := 57421.
(** y.go:151 *)
Definition T_FALSE : Z := 57422.
(** y.go:152 *)
Definition T_OBJECT : Z := 57423.
(** y.go:153 *)
Definition T_TeletexString : Z := 57424.
(** y.go:154 *)
Definition T_BY : Z := 57425.
(** y.go:155 *)
Definition T_FROM : Z := 57426.
(** y.go:156 *)
Definition T_ObjectDescriptor : Z := 57427.
(** y.go:157 *)
Definition T_TRUE : Z := 57428.
(** y.go:158 *)
Definition T_CHARACTER : Z := 57429.
(** y.go:159 *)
Definition T_GeneralizedTime : Z := 57430.
(** y.go:160 *)
Definition T_OCTET : Z := 57431.
(** y.go:161 *)
Definition T_TYPE_IDENTIFIER : Z := 57432.
(** y.go:162 *)
Definition T_CHOICE : Z := 57433.
(** y.go:163 *)
Definition T_GeneralString : Z := 57434.
(** y.go:164 *)
Definition T_OF : Z := 57435.
(** y.go:165 *)
Definition T_UNION : Z := 57436.
(** y.go:166 *)
Definition T_CLASS : Z := 57437.
(** y.go:167 *)
Definition T_GraphicString : Z := 57438.
(** y.go:168 *)
Definition T_OPTIONAL : Z := 57439.
(** y.go:169 *)
Definition T_UNIQUE : Z := 57440.
(** y.go:170 *)
Definition T_COMPONENT : Z := 57441.
(** y.go:171 *)
Definition T_IA5String : Z := 57442.
(** y.go:172 *)
Definition T_PATTERN : Z := 57443.
(** y.go:173 *)
Definition T_UNIVERSAL : Z := 57444.
(** y.go:174 *)
Definition T_COMPONENTS : Z := 57445.
(** y.go:175 *)
Definition T_IDENTIFIER : Z := 57446.
(** y.go:176 *)
Definition T_PDV : Z := 57447.
(** y.go:177 *)
Definition T_UniversalString : Z := 57448.
(** y.go:178 *)
Definition T_CONSTRAINED : Z := 57449.
(** y.go:179 *)
Definition T_IMPLICIT : Z := 57450.
(** y.go:180 *)
Definition T_PLUS_INFINITY : Z := 57451.
(** y.go:181 *)
Definition T_UTCTime : Z := 57452.
(** y.go:182 *)
Definition T_CONTAINING : Z := 57453.
(** y.go:183 *)
Definition T_IMPLIED : Z := 57454.
(** y.go:184 *)
Definition T_PRESENT : Z := 57455.
(** y.go:185 *)
Definition T_UTF8String : Z := 57456.
(** y.go:186 *)
Definition T_DEFAULT : Z := 57457.
(** y.go:187 *)
Definition T_IMPORTS : Z := 57458.
(** y.go:188 *)
Definition T_PrintableString : Z := 57459.
(** y.go:189 *)
Definition T_VideotexString : Z := 57460.
(** y.go:190 *)
Definition T_DEFINITIONS : Z := 57461.
(** y.go:191 *)
Definition T_INCLUDES : Z := 57462.
(** y.go:192 *)
Definition T_PRIVATE : Z := 57463.
(** y.go:193 *)
Definition T_VisibleString : Z := 57464.
(** y.go:194 *)
Definition T_EMBEDDED : Z := 57465.
(** y.go:195 *)
Definition T_INSTANCE : Z := 57466.
(** y.go:196 *)
Definition T_REAL : Z := 57467.
(** y.go:197 *)
Definition T_WITH : Z := 57468.
(** y.go:198 *)
Definition T_ANY : Z := 57469.
(** y.go:199 *)
Definition T_DEFINED : Z := 57470.
