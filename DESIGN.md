# Design of the asn1go model and proofs

This file was written before the proofs and is updated as they land; the section
"Disagreements" records every place where the code does not do what the property
says.  `properties.jsonl` has the properties (C01, C02, ...), `MANIFEST.json` says
which theorems settle them, `seeded/LOG.jsonl` what happened to the theorems when
the model was changed as a bug would change it.  In that log, "observed" means that each
broken proof was admitted, the rest rebuilt, and every theorem asked for its assumptions;
"inferred" means that the build stopped at the broken proof and the theorems listed are
those that use it.  `theorems_not_reached` are theorems about the same claim that such a
build did not get to: the edit was noticed, but it says nothing about these.

## What is modelled

All files are in `rocq/theories`.  Every definition of a model file cites the Go
lines it models; every simplification is stated in that comment.

### Model files

| Coq file | Go source | How |
|---|---|---|
| `GoBase.v` | Go `string`, `int`, `fmt.Sprint(int)`, `strconv.Atoi` | byte strings are Coq `string`s, `int` is `Z` (64-bit range checked where Go checks it); results are `Ok`, `Panic`, `OutOfFuel` |
| `Utf8.v` | `unicode/utf8` DecodeRune, FullRune, EncodeRune (go1.16) | concrete, on bytes |
| `Unicode.v` | `unicode.IsLetter/IsDigit/IsUpper/IsSpace/ToTitle` | ASCII concrete, above that a parameter |
| `Reader.v` | the `*bufio.Reader` methods the lexer calls | record of four operations |
| `Bufio.v` | `bufio.Reader`: NewReader, fill, readErr, ReadRune, UnreadRune, Peek, Discard (go1.16) | concrete 4096-byte buffer over an arbitrary io.Reader |
| `Stream.v` | what that reader looks like from outside | list of byte/failure events and a terminal condition (EOF or a failure that persists) |
| `Lexer.v` | `lexer.go`, all functions | function by function, parameterised by the reader; loops take fuel |
| `Tokens.v`, `Reserved.v`, `Tables.v` | token constants, `RESERVED_WORDS`, tables of `y.go` | copied by `tools/gen_tables.py`, verbatim numbers |
| `Ast.v` | `ast.go` | inductive types; the two pointers into the parser stack are a type parameter; Get, GetType, GetValue |
| `RealNum.v` | `parseRealNumber` and `math.Log10`, `math.Log2`, `math.Frexp`, `math.Log`, `math.Ceil`, `math.Pow10` as far as it calls them | IEEE binary64 on `SpecFloat`, the portable Go algorithms |
| `Actions.v` | the `switch yynt` of `y.go` | every case, on the `yySymType` record; generated by `tools/gen_actions.py` |
| `Driver.v` | `yyParserImpl.Parse`, `yylex1`, `yyErrorMessage` | the goto program as a step function; the value stack as memory (arrays that are replaced when the stack grows), so that pointers into it can be followed after later pushes |
| `Parser.v` | `parser.go` ParseString, ParseStream | |
| `GoAst.v`, `Codegen.v` | `codegen.go` | function by function into a Go AST; errors and required modules are state |
| `GenText.v` | `codegen.go`, the texts of Generate's error | the loop that joins them; %#v is a parameter except for NullType, DefinedValue and nil |
| `Wireshark.v` | `internal/utils/dump.go` ParseWiresharkHex | concrete, with `strconv.ParseInt(_, 16, 9)` |
| `WiresharkTime.v` | `internal/utils/dump.go` ParseWiresharkTime | concrete, with `time.Parse` and `time.Date` of Go 1.16 for the one layout it uses; which error time.Parse returns is left out (all of them panic) |
| `Cli.v` | `cmd/asn1go/main.go`, `cmd/ws2bin/main.go`, `marshal.go`, ParseFile of `parser.go` | file system of names, inodes and contents; programs as state transformers with explicit failure points |
| `Flags.v` | parseFlags of `cmd/asn1go/main.go` | with `flag.FlagSet.Parse` (ExitOnError) for the two flags; the whole process from `os.Args` |

### Specification files

These say what is right; they do not use the functions of the model except where
their header says so.

| Coq file | Contents |
|---|---|
| `Grammar.v` | the rules section of `asn1.y` as an inductive relation between token lists and values (generated by `tools/gen_actions.py` from `asn1.y`, not from `y.go`) |
| `Conflicts.v` | which derivation trees lose a shift/reduce or reduce/reduce conflict |
| `LexSpec.v` | lexical items as pure functions on lists of runes; comments as X.680 defines them are in the first section of `LexFacts.v` |
| `CodegenSpec.v` | what tags, names, imports, Go types mean (e.g. `encoding/asn1`'s parseFieldParameters, Go identifiers) |
| `Render.v` | a printer for modules |
| `Words.v`, `Numbers.v`, `Ranges.v`, `Structs.v`, `Forgotten.v`, `Numerals.v`, `WrittenTags.v`, `ItemLists.v`, `Typings.v`, `WrittenValues.v`, `Parts.v`, `DeclText.v` | words, numbers, value ranges, tags, lists of items, types given, values and components of a text and of a tree; SEQUENCE and SET types with their components in order; the parts of a module and their texts; what is written in the constructs the parser forgets.  `Ranges.v` also has the model of RangeEndpoint.IsUnspecified (`ast.go`) |
| `Wire.v` | BER as tags, lengths left out, over the contents of primitive values; `asn1.Marshal` (encoding/asn1 of go1.16, makeField and makeBody) on values of generated types; which Go value stands for which ASN.1 value; the fragment of types for which C68 is proved (a CHOICE with tagged alternatives included); which values can be sent (C70) |
| `WireRead.v` | `asn1.Unmarshal` (encoding/asn1 of go1.16: parseField, parseSequenceOf, setDefaultValue) into values of generated types; which components can be told apart; equality up to the order of SET OF (C76) |
| `ErrorSpec.v` | the problems of a module and their descriptions (C78) |
| `GoCheck.v` | which files of declarations a Go compiler accepts, as far as generated files go; which modules are sound in that sense (C74) |
| first sections of `WiresharkFacts.v`, `WiresharkTimeFacts.v`, `CliFacts.v`, `BufioSim.v`, `LexRuns.v`, `ParserRuns.v` | dump format, calendar, files, what a reader delivers, what a call of Lex returns, what ParseString returns |

### Proof files

| Coq files | Contents |
|---|---|
| `Automaton.v`, `Lookahead.v` | data for proofs found by scripts (`tools/gen_automaton.py`, `tools/gen_lookahead.py`): LR(0) automaton, weights, lookahead sets.  Nothing is trusted about them: `DriverTables.v`, `LookTables.v`, `Exact.v` check them against `Tables.v` by computation |
| `DriverTables.v`, `DriverFacts.v`, `DriverRun.v`, `DriverSim.v` | the driver for any lexer: stack invariant, no panic, termination |
| `ActionSound.v`, `DriverSound.v`, `GrammarFacts.v` | soundness against `Grammar.v`; one lemma per production (generated by `tools/gen_sound.py`) |
| `Complete.v`, `Exact.v`, `ExactRun.v`, `ParserComplete.v` | which derivation trees are accepted, exactly |
| `LexErr.v`, `LexTotal.v`, `LexFail.v`, `LexEq.v`, `LexRuns.v`, `LexFacts.v`, `LexWords.v`, `LexProps.v`, `LexSim.v`, `Utf8Facts.v` | the lexer |
| `BufioSim.v` | the concrete buffered reader against the abstract stream |
| `ParserFacts.v`, `ParserRuns.v`, `AstFacts.v`, `AstInd.v`, `RealFacts.v` | parser as a whole, pointers, floats |
| `Pointers.v`, `MemFacts.v`, `PointerFacts.v`, `FromText.v` | the pointers of a tree; what the slots of the parser's memory hold; where the pointers lead; words and numbers behind them |
| `WordsFacts.v`, `NumbersFacts.v`, `RangesFacts.v`, `WrittenTagsFacts.v`, `ItemListsFacts.v`, `TypingsFacts.v`, `WrittenValuesFacts.v`, `DeclTextFacts.v`, `ComponentFacts.v`, `NamesFacts.v` | words, numbers, ranges, tags, lists of items, types given, values, components and names of derivation trees, production by production |
| `ForgottenFacts.v`, `PartsFacts.v` | derivation trees without what the parser forgets; the parts of a derivation tree |
| `RenameFacts.v`, `KindSim.v` | renaming commutes with the parser (C81); runs over tokens of the same kinds (C82) |
| `StructFacts.v` | the SEQUENCE and SET types of a derivation tree are those of its value (C69) |
| `WireFacts.v` | marshalling the generated types of the fragment (C68) |
| `CodegenLocal.v` | effects of the generator; independence of other assignments and of order (C72, C73) |
| `ErrorFacts.v` | the errors collected by Generate (C78) |
| `CheckFacts.v` | generated files satisfy the rules of `GoCheck.v` (C74) |
| `SoundCheck.v` | a test for soundness of modules (C74), used on the RFC modules |
| `Recursion.v` | first section: Go types and ASN.1 types that contain themselves; then the proof of C71 |
| `WireReadFacts.v` | unmarshalling into the generated types of the fragment (C76) |
| `WireSend.v` | a Go value for every value of the fragment (C70) |
| `NamesGen.v` | names of the tree and of the generated file (also the specification `declared_names`) |
| `ErrorPrefix.v` | the driver and the lexer on a text and on a continuation of it (C59) |
| `Viable.v`, `ErrorToken.v`, `ErrorRuns.v` | stacks of the automaton spell beginnings of modules; what errors name (C64 to C67; the vocabulary is the first section of `ErrorRuns.v`) |
| `RenderLex.v`, `RenderFacts.v`, `RenderTypes.v`, `RenderModule.v` | the printed text is read back |
| `Codegen*.v`, `GoifyFacts.v`, `WiresharkFacts.v`, `WiresharkTimeFacts.v`, `CliFacts.v` | generator and tools |
| `PropsLexer.v`, `PropsParser.v`, `PropsReader.v`, `PropsRender.v`, `PropsWords.v`, `PropsNumbers.v`, `PropsNames.v`, `PropsErrors.v`, `PropsTools.v`, `PropsFlags.v`, `PropsCodegen.v`, `PropsLocal.v`, `PropsWire.v`, `PropsRead.v`, `PropsChoice.v`, `PropsCompile.v`, `PropsGenErrors.v`, `PropsRename.v`, `PropsStructs.v`, `PropsTags.v`, `PropsItems.v`, `PropsTypings.v`, `PropsValues.v`, `PropsDecls.v`, `PropsParts.v` | the property theorems, each with `Print Assumptions` and an example |
| `Conformance.v` | no property: the repository's own tests, run on the model (below) |

### Fuel

Loops and recursions that Go does not bound take `fuel`; the result `OutOfFuel`
means "not finished yet".  The theorems either hold for every fuel that gives a
result, or say "there is an n such that for every fuel >= n" (`parses`,
`stream_parses`, `call`).  `LexErr.v`, `ParserFacts.v` and `CodegenMono.v` prove
that more fuel never changes a result.  Divergence is "OutOfFuel for every fuel".

## What is not modelled

* `go/printer.Fprint`: Generate's output is the Go AST handed to the printer
  (`w_print` in `Cli.v` is an arbitrary function).
* `encoding/asn1` is not part of the repository.  `parseFieldParameters`, `makeField`,
  `makeBody`, `parseField`, `parseSequenceOf` and `setDefaultValue` are transcribed
  (without the library at hand) as the specification of what a struct tag and a Go
  type mean on the wire (`CodegenSpec.v`, `Wire.v`, `WireRead.v`).  Left out: the octets
  of primitive contents and of lengths (both sides of C68 and C76 have the same abstract
  contents), what follows the encoding that is read, pointers other than `*big.Int`,
  asn1.Flag and asn1.RawContent (which the generator does not use).
* `unicode` tables above U+007F: a parameter (`unicode_tables`); the theorems hold
  for all such tables, except where a hypothesis is stated (C13: digits are not
  letters; C03_colon_refuted: a colon is neither letter nor digit).
* `fmt` formatting of floats, and its %#v of types and values in error texts (except
  NullType, DefinedValue and nil): parameters.  The generator's errors are values of the
  inductive type `gen_error`; `GenText.v` gives their texts.
* `internal/utils/utils.go` (used by the tests only, runs other programs),
  the debug output of the parser (`yyDebug`, constant 0).
* Go's stack limit: unbounded recursion is "does not terminate" in the model.
* Slice aliasing by `append`: every slice built by the parser is used linearly
  ($1 of the rule that extends it), so lists are values.
* Assembly versions of the math functions (s390x): the portable algorithm is
  modelled.  On amd64 `math.Log` is assembly with the same algorithm.

## Trusted base

* Coq 8.16.1's kernel, including `vm_compute`.  No axioms, no plugins, no functors.
* `Print Assumptions` is run under every property theorem; for every one of them
  the answer is "Closed under the global context".  The list of theorems is
  `MANIFEST.json`; no theorem has an exception.  (The checker's list of axioms in
  the loaded environment names `Coq.ssr.ssrunder.Under_rel` and its companions:
  the standard library's ssreflect support, loaded by `lia`; no theorem depends on
  them.)
* The transcription from Go to Gallina, function by function, by reading; and the
  scripts `tools/gen_tables.py` (numbers and strings of `y.go` and `lexer.go`) and
  `tools/gen_actions.py` (with `gosrc.py`, `goexpr.py`), which copy tables, actions
  and grammar rules.  The parser soundness and exactness theorems (C05, C51) tie
  the tables of `y.go` to the grammar of `asn1.y`, two files that are generated
  from different sources: a slip in copying either would make them unprovable.
* The specification files listed above.

Evidence for the transcription: `Conformance.v`, written by `tools/gen_conformance.py`
from the test files of the repository, runs those tests on the model and finds the
results their authors expect: tokens and error messages (`lexer_test.go`), syntax trees
(`parser_test.go`), Go files (`codegen_test.go`), the RFC modules
(`examples_test.go`), hex dumps (`dump_test.go`), and for the Kerberos module the zero
value of every generated type (`codegen_compilation_test.go`) and two recorded messages
(`rfc4120_test.go`) through the models of `asn1.Marshal` and `asn1.Unmarshal`.  That the
code generated for RFC 4120, RFC 5280 and RFC 1155 compiles (the first is what
`TestKerberosCompiles` has the go command find out) follows from C74: `SoundCheck.v` has
a test for the conditions of C74, proved right, that these modules pass.  Left out are
tests the repository skips and the calls of the go command.  These are tests,
not proofs; no property rests on them.

## Properties

Each line: what is modelled, how it is proved.

* C01 — driver + lexer.  Invariant of the driver's step function: when it stops
  with acceptance, rule 1 has been reduced; when it stops otherwise `err` is set.
* C02 — potential function on parser stacks (weights per state found by a script,
  checked by `vm_compute` over all states and rules) plus a length measure on the
  stream for the lexer; the bound is explicit.
* C03 — false: `skipLineComment`, `skipBlockComment` and `peekRunes` loop on a
  persistent error.  Refuted by showing that no fuel suffices; parts: for texts
  that end neither in a comment nor right behind a colon or a full stop (`LexFail.v`)
  ParseStream returns an error; if it returns at all, it returns an error.
* C04 — `err` is never reset: monotonicity through lexer and driver.
* C05 — stack invariant: the state stack is a path of the automaton, each slot
  carries a derivation of its symbol.  One lemma per rule.
* C06, C07 — false (pointer into the parser stack); witnesses by computation on the
  driver with memory: the value is lost, or replaced by one written elsewhere.  C05
  says what is right up to those pointers.  Of their targets: every slot of the
  parser's memory, used or free, holds nothing or what was made from a part of the
  text (`MemFacts.v`, an invariant over all steps and stack growth), hence so do the
  pointers (`PointerFacts.v`; the pointers of a tree are listed in `Pointers.v`).
* C08 — from C05 and the lexical structure: the last token is END.
* C09 — the model's table and stack accesses and slicings return `Panic` when out
  of range; the invariants show that none does.
* C10 — lexer lemma: skipping a layout reaches the same state up to the line
  number; then token by token.
* C11, C12, C13, C14 — from the pure lexical specification, with which the lexer is
  proved to agree (`LexEq.v`); C14 by an invariant over reads, unreads and peeks.
* C15, C16, C17 — false in general; refutation plus exact characterisation of what
  the functions do, plus the condition under which that is what X.680 says.
* C18 — simulation between the concrete bufio reader over any io.Reader and the
  abstract stream; the lexer and the driver are parametric in the reader.
* C19 — false (1.05 reads as 1.5, 1.1 as 2); exactness over the
  rationals for whole values and for fractions with a finite binary expansion
  (`C19_binary_partial`): sums and products of floats are exact when the result
  fits in 53 bits (`RealFacts.v`, all integer parts); that the quotient of the
  fraction is exact is computed for each of the fractions of up to six digits.
* C20 — printer on modules (`Render.v`).  The printed text is shown to have a
  derivation tree that loses no conflict and whose value is the module; then C51.
* C21 — false: the parser overwrites the lexer's message.
* C22, C23, C24, C26, C27, C28, C32, C35, C38, C39, C47, C50, C52, C53 — induction
  over the AST on the codegen model, against `CodegenSpec.v`.
* C25, C29, C31, C33, C36, C37, C40 — false; refutations, and the true part under
  an explicit condition.
* C30 — string reasoning on goifyName.
* C34 — false for cyclic references; proved equivalent to acyclicity of the
  reference chain.
* C41, C42 — parser of the dump format against a printer; C42 false (signs are
  accepted), the accepted language is characterised exactly.
* C43, C44, C45, C49 — file-system model; C43 and C45 false.
* C46 — false (extension groups are dropped); true of every text outside of them and the
  other constructs of C56, by an invariant over all productions (`ComponentFacts.v`) and C05.  The same theorem says
  for C06 that Default is non-nil exactly where DEFAULT is written.
* C48 — UTF-8 decoder: an invalid byte decodes to U+FFFD, which is no token.
* C51 — false: conflicts.  Exact characterisation: accepted iff there is a
  derivation tree without a lost production (`Conflicts.v`), proved by simulation in
  both directions with checked lookahead tables.
* C54 — false for readers that return data and EOF together; witness by computation
  on the concrete buffer, total for the other readers by C18 and C02.
* C55 — ParseFile over the file system of `Cli.v`, by C18.
* C56 — false for export lists, exceptions, WITH COMPONENT(S), extension groups; in every
  accepted text the words outside of these (`outside` in `Forgotten.v`, which cuts the
  seven productions of these constructs off the derivation tree) and of the tree agree,
  by an invariant over all productions (`WordsFacts.v`) and C51.  So nothing else is
  forgotten.  Symbols, numbers and the keywords that leave
  no trace (listed in `Words.v`) are not counted.  That nothing is invented holds of
  all texts and behind the pointers too (`FromText.v`, by the memory invariant of C06).
* C57, C58, C31_text_partial — three steps: the lexer gives names of letters, digits and
  inner hyphens (`LexWords.v`); every name in the tree is the text of such a token
  (`NamesFacts.v`, an invariant over all productions, with C05); the generator titles
  the first letter and replaces hyphens (`NamesGen.v`).
* C60 to C63 — the command line as an explicit list of settings followed by files
  (`PropsFlags.v`); `flag_parse` inverts it and every line without such a reading ends
  the process.  C61 and C62 false.
* C59 — a simulation between the run on the text and the run on the continuation that
  holds until the first run has read the end of its text.  There are no error
  productions, so the first syntax error ends the run; if it came after the end it names
  `$end`, otherwise both runs report the same error with the same line.  The lexical half
  shows that a token, a comment or a (possibly truncated) UTF-8 sequence before white
  space is read alike (`ErrorPrefix.v`).
* C64 to C66 — `Viable.v`: every item of a reachable stack can be completed (each
  nonterminal derives something; each item is followed back to the start item, by
  induction on the stack with levels checked by computation), so the tokens under the
  stack begin a module.  `ErrorToken.v` carries this along the run: until the first error
  of the lexer the stack is the stack of the tokens read; at the error the lookahead is
  the token of the last call, and the tokens that the message lists are those that the
  state shifts, so pushing one of them gives a reachable stack again.
* C67 — false, see below.
* C68 — induction over the Go value, the type and the relation between them; the
  correspondence of the generated declarations with the types is that of C26, C27 and
  C52, that of the struct tags that of C28.  Types outside the fragment: one refutation
  per reason, each a text, a value and what is sent for it.
* C69 — the same induction over derivation trees as for C46, on lists of components; the
  production that would change the order loses a conflict in every accepted text, by the
  exact characterisation of C51.
* C70 — the Go value is built along the ASN.1 value; types that contain themselves other
  than through SEQUENCE OF or SET OF (which have no Go type, C71) are excluded by the
  zero value that an absent component needs.  That asn1.Marshal sends it is C68.
* C71 — a path of containment in the Go file is followed back to the type assignments:
  names are declared once, so every name has one assignment (`Recursion.v`).  Back, a
  path of types that carry each other is followed through the declarations made for them
  (`C71_exactly_partial`): the file is recursive exactly if the module is.
* C72, C73 — every function of the generator is shown to compute a result and a list of
  effects (errors, required packages) that do not depend on the state it starts in, and
  to depend on the assignments through lookups only, which succeed alike in the larger
  module as long as there is no error (`CodegenLocal.v`).
* C74 — every declaration of the file is traced to the assignment it comes from, then
  the rules of the Go specification that apply to such files (`GoCheck.v`, `compiles`)
  are shown one by one.  What is trusted is that list of rules; it covers what
  go/types checks for files made of imports, type declarations (aliases included) and
  variables with constant or one-name initialisers.
* C75 — the induction of C56 with numbers in place of words, once on tokens and once, with
  signs and REAL numbers (`Numerals.v`, `NumeralFacts.v`), on derivation trees; that tokens of numbers are
  not negative and within int64 is C11.  C74 uses it for the constants of the file.
* C76 — induction over the encoding; every component is either found, by its tag, or
  absent, and then the next element cannot be taken for it (`clear`).  The Go value
  stands for a value that differs from the one encoded only in the order of SET OF.
  With C68 this gives the round trip.
* C77 — `type X = asn1.RawValue` takes and returns every element; for `interface{}` the
  switch of parseField is compared with what makeField writes for the values it makes,
  case by case in both directions.
* C78 — every step of the generator adds a list of errors; induction over the big-step
  relation of C52 shows that their texts are those of the flaws of the types visible
  from the type at hand (`ErrorSpec.v`), in both directions.
* C79 — every step of time.Parse is inverted; the arithmetic of time.Date is compared
  with counting days one by one.
* C80 — the ends of a range are recognised from the tokens next to "..", which belong to
  the same phrase (`ends` in `RangesFacts.v`); then the induction of C75.
* C81 — tokens and trees are renamed by the functions of `Rename.v`. Renaming commutes with
  each of the 292 actions, hence with every step of the driver, whose memory (stack arrays,
  also outgrown ones, and lookahead value) is renamed slot by slot, hence with following the
  pointers at the end. The names the parser itself writes are "", GeneralizedTime and UTCTime.
* C82 — a simulation between two runs of the driver that agree in the states on the stack
  (`KindSim.v`); values are not compared at all.
* C83 — C69 (text to tree) composed with C52 (tree to Go), by induction over the relation
  `go_type`; structs are compared by their lists of field names (`GenStructs.v`).
* C84 — the tags of a text are read off its tokens, with no reference to the grammar
  (`WrittenTags.v`); the induction needs that no type starts with IMPLICIT or EXPLICIT and
  that a class number starts with no class word (`WrittenTagsFacts.v`).
* C85 — production-wise induction over the derivation tree the parser follows
  (`PartsFacts.v`); that a symbol of an import is never taken for a module comes from
  `Conflicts.v`.  The statement (`Parts.v`) cuts the token list and does not mention
  productions.
* C86 — the lemmas behind C46, C56, C69, C75, C80, C84, C87, C88 and C89 hold for every phrase of the
  grammar; here they are used for each assignment by itself.
* C87 — a list is read off the tokens of its own phrase by splitting them at commas
  (`ItemLists.v`); alternatives of CHOICE, whose types contain commas, are read off the
  derivation tree as the names of the NamedType phrases that are not inside another one.
  The induction (`ItemListsFacts.v`) needs that numbers of tokens are below 2^63, so that
  the minus sign of asn1.y:597 does not wrap (`wrap64`).
* C88 — a type is given by a phrase; how it starts is read off the tokens behind the name
  (`Typings.v`, `read_bearer` of C84).  Induction production by production
  (`TypingsFacts.v`).  What is behind the start of a type is covered by C46, C69, C84, C87.
* C89 — a value is read off the tokens of its own phrase (`WrittenValues.v`): sign, whole
  and fractional part, exponent, components of an object identifier.  REAL numbers are
  those of `parseRealNumber` (C19).  `WrittenValuesFacts.v` needs that a parser never
  follows the productions for a bare number as a REAL and for a name form in an object
  identifier (`Conflicts.v`).
* C90 — the text is cut into assignments as in C85; the generated file into groups of
  declarations, one for each assignment of the tree (`CodegenShape.v`).  `DeclText.v` reads
  the named numbers and the value of an assignment off its tokens, and `DeclTextFacts.v`
  shows that these are those of the tree, whatever tags are in front of the type and
  whatever constraints behind it.  The tree that the parser returns has positions and
  pointers that the tree of the grammar has not; both have the same shape (C05), which
  suffices here.

## Disagreements

The full statement of each of these properties is false of the model (and, by
reading, of the code).  Each has a theorem `…_refuted`; where something weaker holds
it is proved as `…_partial` (or `…_exact`).

| Property | What the code does | Where |
|---|---|---|
| C03 | a reader that fails for ever inside a comment or behind a colon makes ParseStream loop: the comment loops test only for EOF, peekRunes retries on every error | lexer.go:270-343 |
| C06 | `Default: &$3` is the address of a slot of the parser stack; the next component overwrites it, the AST then says "DEFAULT nil", or "DEFAULT 7" when a later `SIZE (7)` is pushed at the same height | asn1.y ComponentType; y.go actions |
| C07 | the same with `Reference: &$1` of an object identifier | asn1.y ObjectIdentifierValue |
| C10 | `a--comment` is one bad word, not a word and a comment | lexer.go consumeWord |
| C15 | CR and LF both count as lines, so errors in CRLF files are reported on the wrong line | lexer.go isNewline, readRune |
| C16 | `--- a` : the third hyphen and the second close the comment at once | lexer.go skipLineComment |
| C17 | `/*/` counts as opened and closed; a comment that is never closed is accepted at the end of the text | lexer.go skipBlockComment |
| C19 | the fraction is divided by the power of ten of its value, not of its length: 1.05 is 1.5; for 1, 10, 100... one digit is missing: 1.1 is 2 | parser.go:44 |
| C20 | exact round trip fails with DEFAULT values and with references in object identifiers (C06, C07) | |
| C21 | the lexer's message is replaced by "syntax error: unexpected $end" | lexer.go Error, y.go yylex1 |
| C22 | a failing writer may have taken part of the text | codegen.go:131 |
| C25 | asn1.RawValue and big.NewInt are generated without import | codegen.go |
| C28 | UNIVERSAL tags become context-specific | codegen.go tag components |
| C29 | only the innermost tag of a component is written | codegen.go |
| C30 | names above ASCII: U+017F is titled to S; letters without case are not exported | codegen.go:135 |
| C31 | type `ValFoo` and value `foo` get one name | codegen.go |
| C33 | a named number may refer to a value of no assignment | codegen.go |
| C34 | circular references recurse for ever | codegen.go |
| C35 | SEQUENCE OF SET is generated with the SET suffix | codegen.go |
| C36 | UTCTime is unresolved | codegen.go |
| C37 | a tagged reference is no longer tagged when it is named | codegen.go |
| C38 | GetType stops at a value of the same name | ast.go |
| C40 | infinities are printed as +Inf | codegen.go |
| C42 | `-1` and `0ff` are accepted as bytes | dump.go |
| C43 | the output is truncated before parsing | main.go:63-69 |
| C45 | the error text is used as a format string | main.go:29-33 |
| C46 | the components of `[[ ... ]]` are parsed and dropped | asn1.y ExtensionAdditionGroup |
| C47 | alternatives of a CHOICE and tags of elements are not looked at | codegen.go |
| C51 | goyacc's default conflict resolution rejects texts of the grammar: a second extension marker, enumerations with additions, imports from a second module after a bare reference | asn1.y, y.go |
| C56 | EXPORTS lists, exception specifications, WITH COMPONENT(S) constraints are parsed and dropped | asn1.y Exports, ExceptionSpec, InnerTypeConstraints |
| C58 | a component named with a letter without case becomes an unexported field | codegen.go:135 |
| C61 | a flag after the input file is taken as the output file: `asn1go in -package=mine` creates a file `-package=mine` | main.go:35-50 |
| C62 | "File %v can not be written" names the input file | main.go:65 |
| C67 | "M DEFINITIONS" at the end of a text: "expecting ASSIGNMENT", although EXPLICIT, IMPLICIT, AUTOMATIC may follow: the default reduction of the empty tag default is done first | y.go:yyErrorMessage, yyDef |
| C68 | a SET type sent by name becomes a SEQUENCE; IA5String, UTF8String, NumericString with a name or as elements become PrintableString (or UTF8String); tags of type assignments and of elements are not written; GeneralizedTime as an element or as a type of its own becomes UTCTime; FALSE is not sent where the default is TRUE; REAL cannot be sent; `x INTEGER DEFAULT 5, y …`: 0 is not sent, the peer reads 5 | codegen.go:163-286, 408-491 |
| C69 | components of extension groups are dropped (C46) | asn1.y:723 |
| C70 | the fields of OPTIONAL components are not pointers: a component that is present with the value 0, FALSE or an empty string cannot be sent | codegen.go:399-491 |
| C71 | `Rec ::= SEQUENCE { next Rec OPTIONAL }` becomes a Go struct with a field of its own type | codegen.go:376-407 |
| C74 | `List ::= SEQUENCE OF List` becomes `type List = []List`, an invalid recursive alias; `half REAL ::= 5` becomes a float64 initialised with big.NewInt(5) when integers are big.Int; two components of one name become two fields of one name | codegen.go:163-220, 288-330, 376-407 |
| C75 | the number of an exception (`(1 ! 7)`) is parsed and dropped | asn1.y ExceptionSpec |
| C76 | the components of a SET are accepted in one order only; an absent untagged string takes the place of the next one; explicit PRIVATE tags, implicitly tagged times, tags of type assignments and SETs by name are rejected; an absent explicitly tagged component before an empty last one is rejected; TRUE as default, and numbers as defaults of big.Int, are lost; 0, FALSE and "" in OPTIONAL components are read as absent; ENUMERATED values from 2^31 are sent but not read | codegen.go:163-286, 399-491 |
| C77 | a CHOICE without tagged alternatives, and ANY, become interface{}: everything that is structured, BOOLEAN, NULL or ENUMERATED is read as nil, which cannot be written; strings are written as PrintableString or UTF8String; an implicit tag on a CHOICE is written although X.680 makes it explicit; lists of them cannot be read; an absent one takes the next element, and so does an absent CHOICE with tagged alternatives; asn1.RawValue takes elements that are no alternative | codegen.go:276-277, 337-372 |
| C78 | the text of the error is used as a format: `asn1go -default-integer-repr=%d` prints `unknown int type mode: %!d(MISSING)` | cmd/asn1go/main.go:29-33 |
| C80 | the range in `L (WITH COMPONENT (0..MAX))` is parsed and dropped | asn1.y InnerTypeConstraints |
| C83 | the SEQUENCE types in `CHOICE { a SEQUENCE { lost INTEGER }, b NULL }` are not generated | codegen.go generateChoiceType |
| C84 | the tag in the exception of `INTEGER (1..5, ... ! [3] INTEGER : 4)` is parsed and dropped | asn1.y ExceptionSpec |
| C86 | what is said in an exception (`(1..5, ... ! Secret : 4)`) is not in the assignment | asn1.y ExceptionSpec |
| C87 | the enumeration in the exception of `INTEGER (1..5, ... ! ENUMERATED { a(1), b(2) } : a)` is parsed and dropped | asn1.y ExceptionSpec |
| C88 | the type in the exception of `INTEGER (1..5, ... ! SEQUENCE { a NULL } : x)` is parsed and dropped | asn1.y ExceptionSpec |
| C89 | the value in the exception of `INTEGER (1..5, ... ! INTEGER : 77)` is parsed and dropped | asn1.y ExceptionSpec |
| C79 | `2018-01-02   6:04:07.5` is accepted: one-digit hours, further spaces and fractions of a second | dump.go:31-37 |
| C54 | a reader that returns its last bytes together with EOF and a text that fills the buffer and ends with `:` make peekRunes slice out of range | lexer.go:276 |

Two choices of the statements are worth mentioning.  C04 says "an error", not "that
error": which one is reported is C21.  C09 quantifies over strings (whose reader
never returns data and an error together); over arbitrary readers it is C54.
