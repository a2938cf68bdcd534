# Source of /verif/properties.jsonl.  Run: python3 tools/props.py > properties.jsonl
import json
P=[]
def p(id,title,statement,quantifier,why,anchors):
    P.append(dict(id=id,title=title,statement=statement,quantifier=quantifier,why_tests_cant=why,anchors=anchors))
p("C01","A parse returns a module or an error, never neither and never both",
  "Whenever ParseString/ParseStream returns, exactly one of (module, error) is non-nil; in particular a caller that checks the error may dereference the module.",
  "every byte string and every finite history of read results (bytes and transient read errors) followed by EOF",
  "the result depends on the interplay of 432 parser states, lexer error latching and re-lexing after -1; no finite set of inputs covers it",
  ["parser.go:ParseString","parser.go:ParseStream","y.go:Parse","lexer.go:MyLexer.err"])
p("C02","Parsing always terminates on a finite input",
  "ParseStream returns after finitely many steps for every reader that delivers finitely many bytes and transient errors and then EOF.",
  "every finite read history",
  "non-termination cannot be observed by a test, and the bound needs a measure over all parser stacks",
  ["parser.go:ParseStream","y.go:Parse","lexer.go:Lex","lexer.go:skipBlockComment"])
p("C03","A reader that keeps failing makes ParseStream return an error",
  "If the reader starts failing with a persistent non-EOF error, ParseStream returns that failure to the caller.",
  "every input prefix after which the reader fails persistently",
  "the failing position ranges over all positions in all inputs; the failing ones are inside comments and after ':' or '.'",
  ["lexer.go:skipLineComment","lexer.go:skipBlockComment","lexer.go:peekRunes"])
p("C04","A lexical error is never swallowed",
  "If the lexer reports an error for any token of the text read so far, ParseString returns an error, whatever the parser does afterwards.",
  "every input text",
  "after an error token the generated parser keeps calling the lexer and can reach acceptance; only a proof over all continuations excludes a silent success",
  ["lexer.go:Error","lexer.go:Lex","y.go:yylex1","parser.go:ParseStream"])
p("C05","Every accepted module is derivable in the asn1.y grammar and the AST is the one the grammar's actions define",
  "If ParseString(text) returns a module, the token sequence of text is derivable from ModuleDefinition in asn1.y and the returned AST is the value the actions of that derivation compute (up to the targets of DEFAULT and OID reference pointers, see C06/C07).",
  "every accepted text",
  "needs the correspondence of the generated LALR tables and the grammar for all parser configurations",
  ["asn1.y","y.go:yyAct","y.go:yyPact","y.go:yyDef","y.go:Parse","parser.go:ParseString"])
p("C06","The DEFAULT value in the AST is the value written in the text",
  "For a component `name Type DEFAULT value` in accepted text, the Default pointer of the resulting NamedComponentType points to that value when ParseString returns.",
  "every accepted module with a DEFAULT clause, at every nesting and stack depth",
  "the pointer targets a parser stack slot; what it holds at return depends on everything parsed afterwards and on stack reallocation",
  ["asn1.y:ComponentType","y.go:case 152","ast.go:NamedComponentType.Default"])
p("C07","The reference that starts an OID value is the one written in the text",
  "For an OBJECT IDENTIFIER value `{ ref rest }` in accepted text, the first element's Reference names ref when ParseString returns.",
  "every accepted module with OID values",
  "as C06: the pointer targets a reused stack slot",
  ["asn1.y:ObjectIdentifierValue","y.go:case 188","ast.go:ObjectIdElement.Reference"])
p("C08","Nothing may follow END",
  "If ParseString(text) returns a module then the last token of the text is END and everything after it is white space and comments; END does not occur earlier as the closing token.",
  "every accepted text",
  "quantifies over all trailing texts",
  ["y.go:Parse","y.go:yyExca","asn1.y:ModuleDefinition"])
p("C09","The parser never panics",
  "No run of ParseString on any byte string indexes a table or the value stack out of range, underflows the stack, or calls UnreadRune when nothing can be unread.",
  "every byte string",
  "an index error would appear only for some token sequence in some state; there are unboundedly many",
  ["y.go:Parse","y.go:yyErrorMessage","lexer.go:unreadRune","lexer.go:peekRunes"])
p("C10","Tokens do not depend on layout",
  "Replacing the white space and comments between two tokens by any other non-empty white space or comments does not change the token sequence.",
  "every token sequence and every layout between tokens",
  "both the texts and the layouts are unbounded",
  ["lexer.go:Lex","lexer.go:skipLineComment","lexer.go:skipBlockComment","lexer.go:isWhitespace"])
p("C11","Reserved words are exactly the X.680 list (plus ANY and DEFINED) and are never identifiers",
  "A word is returned as a keyword token iff it is in the reserved list, each reserved word has its own token, and no TYPEORMODULEREFERENCE or VALUEIDENTIFIER token carries a reserved word.",
  "every word",
  "the set of words is infinite",
  ["lexer.go:RESERVED_WORDS","lexer.go:Lex"])
p("C12","Names produced by the lexer are well formed",
  "Every name of an identifier/reference token starts with a letter, contains only letters, digits and single hyphens and does not end with a hyphen; references start upper case and identifiers do not.",
  "every input text and every token in it",
  "the set of inputs is infinite",
  ["lexer.go:consumeWord","lexer.go:isIdentifierChar","lexer.go:Lex"])
p("C13","Number tokens denote their decimal value or are rejected",
  "A number token's value is the value of its digits in base ten and lies in [0, 2^63); longer or non-ASCII digit strings are lexical errors, never wrapped or truncated.",
  "every digit string",
  "unbounded digit strings; overflow behaviour at every length",
  ["lexer.go:consumeNumber"])
p("C14","The line number in an error counts the line-break characters consumed",
  "The reported line is one plus the number of LF, VT, FF and CR characters consumed so far, under every mix of reads, unreads and peeks.",
  "every input text and error position",
  "needs an invariant over all interleavings of read/unread/peek",
  ["lexer.go:readRune","lexer.go:unreadRune","lexer.go:Error"])
p("C15","Line numbers agree with text editors on CRLF files",
  "For a text with CRLF line ends the reported line is one plus the number of CRLF pairs before the error.",
  "every CRLF text",
  "quantifies over all texts",
  ["lexer.go:isNewline","lexer.go:readRune"])
p("C16","A -- comment ends at the next -- or at the end of the line",
  "After '--', the comment extends to the first later pair of adjacent hyphens not overlapping the opening pair, or the end of line (X.680 11.6.3).",
  "every comment text",
  "comment bodies are unbounded; the failing ones start with a third hyphen",
  ["lexer.go:skipLineComment","lexer.go:Lex"])
p("C17","A /* comment ends at its matching */",
  "A block comment ends at the matching '*/' counting nested comments, the opening '/*' itself not contributing to a closing '*/', and an unterminated comment is an error (X.680 11.6.4).",
  "every comment text and nesting depth",
  "nesting is unbounded",
  ["lexer.go:skipBlockComment","lexer.go:Lex"])
p("C18","The result does not depend on how the reader splits its data",
  "ParseStream over any reader that delivers the same bytes in arbitrary non-empty chunks (1-byte reads, short reads, buffer-boundary splits) returns the same result as ParseString on the whole text.",
  "every text and every chunking",
  "chunkings interact with the 4096-byte buffer and with multi-byte runes in unboundedly many ways",
  ["parser.go:ParseStream","lexer.go:peekRunes","lexer.go:discard","lexer.go:unreadRune"])
p("C19","A REAL literal has the value its digits denote",
  "For a literal i.f(e x) the AST value is i.f * 10^x (up to float rounding).",
  "every real literal",
  "the fraction is read as an integer token; which literals survive needs a statement over all digit strings",
  ["parser.go:parseRealNumber","asn1.y:realnumber"])
p("C20","Round trip: rendering a module and parsing it gives the module back",
  "A printer that writes a module in X.680 notation, one space between two items, is inverted by ParseString: every printed module without DEFAULT values and without value references in object identifiers is returned exactly, every other printed module up to what the DEFAULT and reference pointers point to.",
  "every module that is printed: all types, tags, constraints, values but finite reals, imports (unbounded lists and nesting)",
  "the set of modules is infinite; nesting makes parser stacks arbitrarily deep",
  ["parser.go:ParseString","lexer.go:Lex","y.go:Parse","asn1.y"])
p("C21","The first lexical error is the one reported",
  "When the text has a lexical error, the returned error carries the lexer's message and line for it.",
  "every text with a lexical error",
  "depends on what the parser does after the error token, for every state",
  ["lexer.go:Error","y.go:Parse"])
p("C22","Generate is all or nothing",
  "If Generate returns an error for a module, it has written nothing to the writer.",
  "every module AST and generator configuration",
  "errors may be discovered anywhere in an unbounded AST",
  ["codegen.go:Generate"])
p("C23","AUTOMATIC TAGS modules are rejected",
  "Generate returns an error for every module with AUTOMATIC tag default, independently of its contents.",
  "every module body", "module bodies are unbounded", ["codegen.go:Generate"])
p("C24","No duplicate and no unused imports",
  "On success the import declarations are pairwise distinct, come first, and each imported package is referenced by some declaration (Go rejects unused and duplicate imports).",
  "every module for which Generate succeeds", "unbounded modules", ["codegen.go:requireModule","codegen.go:Generate"])
p("C25","Every package used is imported",
  "On success every package-qualified name in the declarations has its package imported.",
  "every module for which Generate succeeds", "unbounded modules; the failing class needs a characterisation", ["codegen.go:generateChoiceType","codegen.go:numberToExpr","codegen.go:requireModule"])
p("C26","Every type assignment yields its Go declaration, in order",
  "On success, for each type assignment in order there is a type declaration whose (last) spec is named after the reference, and nothing else declares types.",
  "every module for which Generate succeeds", "unbounded lists", ["codegen.go:generateDeclarations","codegen.go:generateTypeDecl"])
p("C27","Struct fields mirror components",
  "The struct generated for a SEQUENCE/SET has exactly one field per component, in source order with extension additions last, with the component's name.",
  "every component list for which generation succeeds", "unbounded lists", ["codegen.go:structFromComponents","codegen.go:generateStructField"])
p("C28","The struct tag means what the component declares",
  "For a component with at most one tag, decoding the generated struct tag with encoding/asn1's parameter parser yields the declared tag number, class, explicit/implicit mode, optionality and integer default.",
  "every component, tag number, class, default value and module tag default",
  "numbers and combinations are unbounded", ["codegen.go:asn1TagFromType"])
p("C29","All tags of a multiply tagged component are honoured",
  "For a component tagged more than once, every tag number appears in the encoding parameters.",
  "every component with two or more tags", "tag numbers are unbounded", ["codegen.go:asn1TagFromType"])
p("C30","Generated names are exported Go identifiers and distinct names stay distinct",
  "For every ASN.1 name the generated identifier is a valid exported Go identifier, and two different component names (or two different type names) never give the same identifier.",
  "every pair of lexically valid names", "infinitely many names", ["codegen.go:goifyName"])
p("C31","Top-level generated names are unique",
  "On success for a module with distinct assignment names, no two generated top-level declarations have the same name.",
  "every module with distinct names", "unbounded modules; collisions need a search over names", ["codegen.go:generateTypeDecl","codegen.go:valueRefToIdent","codegen.go:generateAssociatedValuesIfNeeded"])
p("C32","Successful generation leaves no dangling type name",
  "On success every type name used in the declarations is a Go predeclared type, a package-qualified name, or is declared in the same file.",
  "every module for which Generate succeeds", "unbounded modules", ["codegen.go:generateTypeBody","codegen.go:resolveTypeReference"])
p("C33","Successful generation leaves no dangling value name",
  "On success every value identifier used as an initialiser is declared in the same file.",
  "every module for which Generate succeeds", "unbounded modules", ["codegen.go:generateAssociatedValuesIfNeeded","codegen.go:tryGenerateValueAssignment"])
p("C34","Generate terminates",
  "Generate returns for every parsed module.",
  "every module", "non-termination is not testable; reference graphs are unbounded", ["codegen.go:unwrapToLeafType","codegen.go:resolveTypeReference"])
p("C35","Only ASN.1 SET and SET OF types become …SET types",
  "A generated declaration gets the SET-suffixed type (which encoding/asn1 encodes as a SET) iff the ASN.1 type is, under tags and constraints, a SET or SET OF.",
  "every type assignment", "types nest without bound", ["codegen.go:generateTypeBody","codegen.go:generateTypeDecl"])
p("C36","Both useful time types can be used as components",
  "Generate succeeds for a module whose only types are SEQUENCEs of GeneralizedTime and UTCTime components.",
  "every such module", "unbounded", ["ast.go:USEFUL_TYPES","codegen.go:resolveTypeReference"])
p("C37","Naming a type does not change what is generated for a CHOICE that uses it",
  "Replacing an alternative's type by a reference to an assignment of the same type does not change whether the CHOICE is generated as a raw value.",
  "every CHOICE and alternative", "unbounded", ["codegen.go:taggedChoiceTypeAlternative","codegen.go:hasTaggedAlternatives"])
p("C38","Assignment lookup finds the first assignment of that name and nothing else",
  "Get/GetType/GetValue return the first assignment whose reference has the given name (of the requested kind), and nil iff there is none.",
  "every assignment list and name", "unbounded lists", ["ast.go:AssignmentList.Get","ast.go:GetType","ast.go:GetValue"])
p("C39","Numeric values survive code generation",
  "The integer literal emitted for an integer value, named number or DEFAULT denotes exactly that integer, and a value assignment of a number, boolean or finite real yields exactly one variable declaration.",
  "every integer and every value assignment", "infinitely many integers", ["codegen.go:numberToExpr","codegen.go:tryGenerateValueAssignment","codegen.go:asn1TagFromType"])
p("C40","REAL values are emitted as Go expressions",
  "Every REAL value assignment is emitted as a literal that Go accepts.",
  "every REAL value including the special ones", "special values come from grammar paths tests do not take", ["codegen.go:tryGenerateValueAssignment","asn1.y:SpecialRealValue"])
p("C41","ParseWiresharkHex inverts the dump format",
  "For every byte sequence, line split and offset column, parsing the hex dump returns the bytes.",
  "every byte sequence and line layout", "unbounded", ["internal/utils/dump.go:ParseWiresharkHex","cmd/ws2bin/main.go"])
p("C42","ParseWiresharkHex accepts only hex bytes",
  "ParseWiresharkHex panics on every dump with a column that is not one or two hexadecimal digits.",
  "every input string", "unbounded inputs", ["internal/utils/dump.go:ParseWiresharkHex"])
p("C43","A failing asn1go run leaves the output file as it was",
  "If the command exits with a failure, the previous contents of the output file are intact.",
  "every input, file system state and flag combination", "needs all failure points", ["cmd/asn1go/main.go:openChannels","cmd/asn1go/main.go:main"])
p("C44","A successful asn1go run writes exactly the generated code and touches nothing else",
  "If the command succeeds, the output file holds exactly the generated code and every other file is unchanged.",
  "every input and file system state", "unbounded states", ["cmd/asn1go/main.go:main","cmd/asn1go/main.go:openChannels"])
p("C45","asn1go prints the error it got",
  "On a parse error the text written to stderr is the error text followed by a newline.",
  "every erroneous input", "error texts contain user characters such as %", ["cmd/asn1go/main.go:failWithError","cmd/asn1go/main.go:main"])
p("C46","No component written in the text is missing from the AST",
  "Every component name written between the braces of a SEQUENCE or SET of an accepted text occurs in the AST.",
  "every accepted text", "unbounded texts; extension groups", ["asn1.y:ExtensionAddition","asn1.y:ExtensionAdditionGroup"])
p("C47","Unsupported constructs are errors, never silently dropped by Generate",
  "If a NULL type, an unresolved type reference, a COMPONENTS OF or a tag number given by reference occurs in a component of any type assignment, Generate returns an error.",
  "every module", "the construct may be arbitrarily deep", ["codegen.go:generateTypeBody","codegen.go:structFromComponents","codegen.go:asn1TagFromType"])
p("C48","Text outside comments must be valid UTF-8",
  "A byte sequence that is not valid UTF-8 outside comments makes ParseString return an error; inside comments it is ignored.",
  "every byte string", "unbounded byte strings", ["lexer.go:Lex","lexer.go:consumeSingleSymbol"])
p("C49","MarshalToFile does not touch the file when marshalling fails",
  "If Marshal fails, the target file is unchanged; if everything succeeds it holds exactly the marshalled bytes.",
  "every value, marshal result and file system state", "all failure points", ["marshal.go:MarshalToFile"])
p("C50","A tag given to a type keeps its meaning under the module's tag default",
  "A tag without IMPLICIT/EXPLICIT is generated as explicit in a module with EXPLICIT (or absent) tag default and as implicit in a module with IMPLICIT default; with the keyword, the keyword wins.",
  "every component and module default", "combinations nest without bound", ["codegen.go:asn1TagFromType","asn1.y:TaggedType"])
p("C51","Every module of the grammar is accepted",
  "Every text whose token sequence is derivable from ModuleDefinition in asn1.y is accepted by ParseString.",
  "every derivable token sequence", "LALR conflicts are resolved silently by goyacc; derivable texts are unbounded", ["asn1.y","y.go:yyAct","y.go:yyDef"])
p("C52","Each ASN.1 type is generated as its documented Go type",
  "The Go type expression generated for a type assignment is the one the documentation gives for the ASN.1 type, at any depth, with references resolved in the module.",
  "every module and integer representation", "types nest without bound", ["codegen.go:generateTypeBody","codegen.go:resolveTypeReference","README.md"])
p("C53","Generate succeeds on exactly the supported modules",
  "For a module without circular type references Generate succeeds if and only if the tag default is not AUTOMATIC, every type is made of supported types with resolvable references, component tags are literal numbers and named numbers refer to values of the same module.",
  "every module", "both directions range over unbounded modules", ["codegen.go:Generate","codegen.go:generateDeclarations","codegen.go:generateTypeBody"])
p("C54","No reader makes ParseStream panic",
  "ParseStream returns a module or an error for every reader that follows the io.Reader contract, including readers that return their last bytes together with io.EOF.",
  "every io.Reader", "panics depend on how the data falls on the boundary of the read buffer", ["parser.go:ParseStream","lexer.go:peekRunes"])
p("C55","ParseFile gives what ParseString gives for the contents of the file",
  "ParseFile(name) returns the error of the operating system when the file cannot be opened, an error when a read fails, and otherwise exactly the result of ParseString on the contents, however many bytes each read delivers.",
  "every file, contents and sequence of short reads", "short reads and contents are unbounded", ["parser.go:ParseFile","parser.go:ParseStream"])
p("C56","Nothing written in a module is lost or invented",
  "Every name and every type, value and modifier keyword of an accepted text occurs in the AST exactly as often as it is written.",
  "every accepted text", "needs an invariant of all 291 productions and the order in which the parser applies them", ["asn1.y","y.go:Parse","ast.go"])
p("C57","The package clause",
  "The generated file is in the package requested in GenParams; without a request in a package named after the module, and that name is a Go identifier.",
  "every module and all parameters (the identifier: every accepted ASCII text)", "infinitely many module names", ["codegen.go:Generate","codegen.go:goifyName"])
p("C58","Everything generated code declares has the name of an exported Go identifier",
  "For every accepted text for which Generate succeeds, all types, variables and struct fields of the generated file, at any depth, have names that are exported Go identifiers (never blank, a keyword, or unexported, which encoding/asn1 could not fill).",
  "every accepted text", "needs the shape of names in the lexer, their path through the parser's tree, and structs nested without bound", ["lexer.go:Lex","codegen.go:goifyName","codegen.go:valueRefToIdent","codegen.go:structFromComponents"])
p("C59","A syntax error is reported where it is, whatever follows",
  "If ParseString rejects a text because of a token in it, it rejects every continuation of that text (after white space) with the same message and the same line number; so no later text can repair, hide or move the error.",
  "every rejected text and every continuation", "continuations are unbounded; later tokens could be read before the error is reported, and lexical errors after it overwrite the message", ["y.go:Parse","lexer.go:Lex","lexer.go:Error","parser.go:ParseStream"])
p("C60","The command line of asn1go",
  "Flags before the file names are obeyed in all four forms (-f v, -f=v, --f v, --f=v), the last setting of a flag counts, the defaults are the module's name and int64, and what follows is the list of files; every other command line ends with status 2 (or 0 if help was asked for), a usage text, and no file read or touched.",
  "every argument list", "argument lists are unbounded and values may look like flags", ["cmd/asn1go/main.go:parseFlags","cmd/asn1go/main.go:main"])
p("C61","A flag is never taken for a file name",
  "An argument that looks like a flag is never opened, created or truncated as a file.",
  "every argument list without the argument --", "depends on the order of arbitrary arguments", ["cmd/asn1go/main.go:parseFlags","cmd/asn1go/main.go:openChannels"])
p("C62","Messages about files name the file",
  "If the input or the output file cannot be opened, the message on standard error names that file and gives the reason.",
  "every pair of names and every failure", "failures of the operating system", ["cmd/asn1go/main.go:openChannels"])
p("C63","The exit status tells whether the code was written",
  "The status of asn1go is 0 only if the complete code of the module in the input has been written to the output (or help was asked for); otherwise it is 1 or 2 and there is a message.",
  "every argument list, file system and failure of the environment", "needs all failure points together with all command lines", ["cmd/asn1go/main.go:main","cmd/asn1go/main.go:parseFlags","cmd/asn1go/main.go:failWithError"])
p("C64","An error names the token at which the parser stopped",
  "Every error of ParseString is an error that the lexer left, or a syntax error with the line where the last call of Lex stopped reading, the name of the token that this call returned, and at most four tokens that would do.",
  "every rejected text", "needs that the token named is the last one read in every state of the parser, however many reductions precede the error", ["y.go:yyErrorMessage","y.go:yyTokname","y.go:Parse","lexer.go:Error"])
p("C65","Errors are found at the first token that cannot follow",
  "What precedes the offending token of a rejected text is the beginning of some module of the grammar: the parser never reads past a mistake. If the lexer fails first, the same holds of what precedes the lexical error.",
  "every rejected text", "viable prefixes: infinitely many texts, and for each of them a completion must exist", ["y.go:Parse","y.go:yyErrorMessage","parser.go:ParseStream"])
p("C66","What a syntax error expects is right",
  "With any token of a kind listed after 'expecting' in the place of the offending token, the text read so far is still the beginning of some module of the grammar.",
  "every rejected text and every listed kind of token", "needs a completion for every state of the parser and every stack below it", ["y.go:yyErrorMessage","y.go:Parse"])
p("C67","A syntax error lists all that is expected",
  "If a syntax error lists expected tokens, no other token could have been accepted in that place.",
  "every rejected text", "quantifies over all continuations", ["y.go:yyErrorMessage","y.go:Parse"])
p("C68","Generated types encode as the ASN.1 types they come from",
  "If asn1.Marshal is given a value of a generated type, it returns a BER encoding of the corresponding value of the ASN.1 type (tags, order, presence of optional and default components), so that any other implementation of the module can read it.",
  "every module for which Generate succeeds, every type of it and every value", "types nest and refer to each other without bound; the Go type, the struct tags and encoding/asn1 must agree on every value", ["codegen.go:generateTypeBody","codegen.go:structFromComponents","codegen.go:asn1TagFromType"])
p("C69","Components come in the order in which they are written",
  "Every SEQUENCE and SET of an accepted text is in the AST (and so in the generated struct, C27) with exactly its components in the order of the text, extension additions included.",
  "every accepted text", "components are collected in three lists (components, extension additions, trailing components) that are put together by the parser's actions", ["asn1.y:SequenceType","asn1.y:ComponentTypeLists","ast.go:SequenceType"])
p("C70","Every value of an ASN.1 type can be sent",
  "For every value of a type of the module there is a value of the generated Go type for which asn1.Marshal returns a BER encoding of that value.",
  "every module for which Generate succeeds, every type of it and every abstract value", "values nest without bound, and the same Go field has to stand for all values of its component including its absence", ["codegen.go:generateStructField","codegen.go:asn1TagFromType"])
p("C71","Generated types are not recursive without a pointer",
  "No generated Go type contains a value of itself other than through a pointer or a slice; Go rejects such a type ('invalid recursive type').",
  "every module for which Generate succeeds", "cycles may run through any number of types, aliases and the additional types of SETs", ["codegen.go:generateTypeDecl", "codegen.go:structFromComponents", "codegen.go:generateStructField"])
p("C72","Other assignments do not matter",
  "Adding assignments to a module does not change the code generated for those already there: what two modules have in common becomes the same declarations, and what is imported for a part is imported for the whole.",
  "every pair of modules for which Generate succeeds, one of which defines all types of the other in the same way", "the generator keeps state (errors, imported packages) across assignments and follows references through the whole module; no finite set of module pairs shows that nothing leaks from one assignment to the next", ["codegen.go:generateDeclarations", "codegen.go:resolveTypeReference", "codegen.go:requireModule"])
p("C73","The order of assignments does not matter",
  "Reordering the assignments of a module (no name assigned twice) reorders the declarations and imports of the generated file, or the errors, and changes nothing else.",
  "every module without duplicate names and every permutation of its assignments", "all permutations of unboundedly many assignments that refer forwards and backwards", ["codegen.go:generateDeclarations", "codegen.go:unwrapToLeafType", "ast.go:AssignmentList.Get"])
p("C74","Generated code compiles",
  "If Generate succeeds, the Go compiler accepts the file: package and import clauses are legal and used, every name is declared once and resolves to a predeclared, imported or generated type, struct fields are distinct and their tags are legal literals, variables are initialised with constants or variables of their types, and no alias, type or initialisation is circular.",
  "every ASCII text accepted by ParseString for which Generate succeeds, every package name and integer representation", "whether a file compiles depends on all declarations together: names that coincide, cycles over any number of types, imports that are needed or not; tests compile the output of a few modules", ["codegen.go:Generate", "codegen.go:generateDeclarations", "codegen.go:generateTypeDecl", "codegen.go:generateTypeBody", "codegen.go:tagFromComponents"])
p("C75","Numbers survive parsing",
  "The integers in the AST (values, named numbers, enumerations, tags, bits, bounds, object identifiers) are the numbers of the text, each as often as it is written and with its sign; none is made up, none overflows int.",
  "every text accepted by ParseString", "numbers occur at unbounded depth in more than twenty productions, and every one of them has to hand its number on", ["lexer.go:consumeNumber", "asn1.y:SignedNumber", "asn1.y:NamedNumber", "asn1.y:ClassNumber", "asn1.y:NumberForm", "ast.go:Number"])
p("C76","Generated types read what peers send",
  "asn1.Unmarshal into a generated type accepts every BER encoding of every value of the ASN.1 type and yields a Go value that stands for it (up to the order of SET OF); so a value sent by one program built from the module is received unchanged by another.",
  "every module for which Generate succeeds, every type of it, every value and every encoding of it", "encodings and types nest without bound, and whether an absent component is recognised depends on everything that may follow it", ["codegen.go:asn1TagFromType", "codegen.go:generateStructField", "codegen.go:structFromComponents", "codegen.go:generateTypeDecl"])
p("C77","What is read into a CHOICE or ANY is written back",
  "If a program built with the generated types unmarshals an encoding of a CHOICE or ANY value and marshals the result, it gets an encoding of the same value.",
  "all modules, all type assignments to CHOICE or ANY types, all encoded elements", "depends on which Go type the generator picks (asn1.RawValue, interface{} or the type of the only alternative) and on what encoding/asn1 does with each kind of element; tests send one message", ["codegen.go:162-187", "codegen.go:276-277", "codegen.go:337-372"])
p("C78","The error of Generate names every problem of the module and nothing else",
  "If Generate fails on a module that does not have AUTOMATIC TAGS, the text of its error is a fixed header followed by lines, and these lines are, as a set, exactly the descriptions of the problems of the module: an unsupported type (NULL, or a named element of SEQUENCE OF / SET OF), an unresolvable type reference by its name, COMPONENTS OF, a tag number that is not a literal, an AUTOMATIC tag, a named number defined in another module, an unknown integer representation, each where a Go type is needed. If it succeeds there are none. asn1go prints the text and exits with status 1.",
  "every module, every generator parameters", "problems at any depth in any number of assignments; both directions (no problem missed, none invented)", ["codegen.go:Generate", "codegen.go:appendError", "codegen.go:generateTypeBody", "codegen.go:resolveTypeReference", "codegen.go:asn1TagFromType", "codegen.go:generateAssociatedValuesIfNeeded", "cmd/asn1go/main.go:failWithError"])
p("C79","ParseWiresharkTime reads exactly the dates and times of its format",
  "For every day of the Gregorian calendar up to the year 9999 and every time of day, ParseWiresharkTime of the text YYYY-MM-DD hh:mm:ss returns that instant in UTC; on every other text it panics.",
  "every input string", "more than 3*10^11 valid texts, unboundedly many others; leap years and month lengths", ["internal/utils/dump.go:ParseWiresharkTime"])
p("C80","Value ranges keep their ends",
  "The value ranges in the AST are those of the text, each as often as it is written: an end is unspecified (RangeEndpoint.IsUnspecified) exactly if MIN or MAX is written there, and open (IsOpen) exactly if there is a < between it and the two dots.",
  "every text accepted by ParseString", "ranges occur at unbounded depth in constraints of constraints, unions, sizes and components; every production on the way has to hand them on", ["ast.go:RangeEndpoint.IsUnspecified", "asn1.y:ValueRange", "asn1.y:LowerEndpoint", "asn1.y:UpperEndpoint", "asn1.y:LowerEndValue", "asn1.y:UpperEndValue"])
p("C81","Names mean nothing to the parser",
  "Replacing the names in a text (identifiers and references, in any layout; not necessarily one-to-one) by other names of the same kind changes the result of ParseString only in that every name in the AST is replaced likewise, values behind DEFAULT and reference pointers included. A rejected text is rejected with the same message up to the line number. So no name that is not reserved is special to the parser.",
  "every text without lexical errors, every function on names that leaves the empty name, GeneralizedTime and UTCTime alone", "unboundedly many texts and renamings; a name compared to a literal anywhere in 292 actions, or leaking from a stale lookahead or stack slot, would break it for that name only", ["parser.go:ParseString", "y.go:yyParserImpl.Parse", "asn1.y", "lexer.go:MyLexer.Lex"])
p("C82","Acceptance depends on the kinds of the tokens only",
  "Two texts without lexical errors whose tokens are of the same kinds in the same order are both accepted by ParseString, or both rejected with the same message up to the line number. So undefined or duplicate names, reversed ranges, repeated tags and the like are never reported by the parser, and editing a name or a number in a module cannot make it unparsable.",
  "every two texts without lexical errors", "pairs of texts; a hidden check of a value in an action or a decision of the driver that depends on a value would show for particular values only", ["parser.go:ParseString", "y.go:yyParserImpl.Parse", "asn1.y"])
p("C83","From the text to the Go structs",
  "If ParseString accepts a text and Generate the module, the struct types in the type declarations of the generated code are, one for one, the SEQUENCE and SET types with braces written in the text, at every depth; each has one field per component, in the order written (extension additions included), named after it.",
  "every accepted text from which code is generated, at unbounded nesting", "the chain text, tokens, tree, Go tree over unboundedly many nested types; a component lost or moved in any of the list productions or in the generator shows only in particular combinations", ["parser.go:ParseString", "asn1.y:SequenceType", "asn1.y:SetType", "asn1.y:ComponentType", "codegen.go:declCodeGen.Generate", "codegen.go:moduleContext.structFromComponents"])
p("C84","Tags are those of the text",
  "The tags in the AST are those written in the text, each as often as it is written, with its class (context-specific without a class word), its number or the value that names it, IMPLICIT or EXPLICIT exactly if that word stands behind it, and on the type it stands before (another tag, a named type, or a built-in type).",
  "every text accepted by ParseString", "tags occur at unbounded depth and in any number on one type; two actions that swap tag modes, a class number taken from a stale stack slot or a tag moved over a constraint would show only in particular nestings", ["asn1.y:TaggedType", "asn1.y:Tag", "asn1.y:Class", "asn1.y:ClassNumber", "ast.go:TaggedType", "ast.go:Tag"])
p("C85","A module consists of the parts of its text, in their order",
  "The AST of an accepted text has the module name, the tag default and the extensibility default written in its head; one import for each FROM, in the order of the text, with exactly the symbols listed in front of that FROM (lower-case as values, upper-case as types) and the module named behind it; and one assignment for each assignment of the text, in the order of the text, with the name and the kind (type or value) that are written. The text has nothing besides these parts and the export list.",
  "every text accepted by ParseString", "modules of any number of imports and assignments; lists built by append in left- and right-recursive productions may be reversed, cut or aliased for some lengths only", ["asn1.y:ModuleDefinition", "asn1.y:TagDefault", "asn1.y:SymbolsFromModuleList", "asn1.y:SymbolList", "asn1.y:AssignmentList", "asn1.y:TypeAssignment", "asn1.y:ValueAssignment", "ast.go:ModuleDefinition"])
p("C86","An assignment says what its own text says",
  "Everything written between the name of an assignment and the next assignment is in that assignment of the AST, and nothing else is: its words, its numbers with their signs, its components, its SEQUENCE and SET types with their components in order, its value ranges, its tags, its lists of items, its types (C88) and its values (C89). Nothing moves from one assignment to another.",
  "every text accepted by ParseString", "the parser has one stack for all assignments; a value left over from an earlier assignment would show up only for particular pairs of neighbours", ["asn1.y:AssignmentList", "asn1.y:TypeAssignment", "asn1.y:ValueAssignment", "y.go:yyParserImpl.Parse"])
p("C87","Items of lists are those of the text, in their order",
  "The named numbers of every INTEGER, the items of every ENUMERATED, the named bits of every BIT STRING and the alternatives of every CHOICE in the AST are those written between its braces: in the written order, each with the (signed) number or the value reference written in round brackets behind its own name, those behind ... apart from the others; and the AST has no other such list.",
  "every text accepted by ParseString", "lists have any length and occur at any depth; a list that is reversed, shares its backing array with another, or gives a name the number of its neighbour would show only for particular lengths and nestings", ["asn1.y:NamedNumberList", "asn1.y:NamedNumber", "asn1.y:Enumerations", "asn1.y:Enumeration", "asn1.y:EnumerationItem", "asn1.y:NamedBitList", "asn1.y:NamedBit", "asn1.y:AlternativeTypeLists", "asn1.y:ExtensionAdditionAlternatives"])
p("C88","Every name has the type that the text gives it",
  "Every assigned type, assigned value, component and alternative of the AST has, under its own name, a type that starts as in the text: with the same tag, the same referenced type name or the same type word (INTEGER, SEQUENCE, ...). The elements of every SEQUENCE OF and SET OF, every COMPONENTS OF and every type in a constraint have the type written there. The AST gives no other types.",
  "every text accepted by ParseString", "types nest to any depth and names repeat; a type attached to a neighbouring name, or lost below a certain nesting, shows only for particular combinations of productions", ["asn1.y:TypeAssignment", "asn1.y:ValueAssignment", "asn1.y:NamedType", "asn1.y:ComponentType", "asn1.y:SetOfType", "asn1.y:SequenceOfType", "asn1.y:TypeWithConstraint", "asn1.y:TypeConstraint"])
p("C89","Every value is the one that the text writes in its place",
  "Every assigned value of the AST is, under its own name, the value written behind its ::= (number with its sign, REAL, boolean, infinity, reference, object identifier with the names and numbers of its components in order); every single value of a constraint is the one written there; every value range goes from the value written in front of its .. to the one written behind it, MIN and MAX giving none. The AST has no other such values.",
  "every text accepted by ParseString", "values of any size, in constraints at any depth; ends of a range that are swapped or a value that takes the number of its neighbour show only for particular combinations", ["asn1.y:ValueAssignment", "asn1.y:Value", "asn1.y:BuiltinValue", "asn1.y:ObjectIdentifierValue", "asn1.y:ObjIdComponents", "asn1.y:SingleValue", "asn1.y:ValueRange", "asn1.y:LowerEndpoint", "asn1.y:UpperEndpoint", "asn1.y:RealValue"])
p("C90","The Go file has the declarations of the text, assignment by assignment",
  "If ParseString accepts a text and Generate then succeeds, the Go file consists of imports and of one group of declarations for each assignment of the text, in the order of the text: for \"Name ::= type\" the declaration of a type of that name and, exactly if an INTEGER with named numbers is written there, variables of that type in the order of the text, each with the name and the number (or reference) that is written; for \"name type ::= value\" one variable of that name and with that value if a number, a boolean or a REAL is written, and nothing otherwise. There are no other declarations.",
  "every text accepted by ParseString, every generator parameter, every generation that succeeds", "links every text to every file that can be made of it: names, signs, order and multiplicity through lexer, parser and generator at once", ["asn1.y:AssignmentList", "asn1.y:TypeAssignment", "asn1.y:ValueAssignment", "asn1.y:NamedNumber", "codegen.go:generateDeclarations", "codegen.go:generateAssociatedValuesIfNeeded", "codegen.go:tryGenerateValueAssignment", "codegen.go:numberToExpr"])
for x in P: print(json.dumps(x,ensure_ascii=False))
