-Q theories Verif
theories/GoBase.v
theories/Utf8.v
theories/Unicode.v
theories/Reader.v
theories/Stream.v
theories/Bufio.v
theories/Tokens.v
theories/Tables.v
theories/Reserved.v
theories/Lexer.v
theories/Ast.v
theories/RealNum.v
theories/RealFacts.v
theories/Actions.v
theories/Grammar.v
theories/Driver.v
theories/Parser.v
theories/GoAst.v
theories/Codegen.v
theories/Wireshark.v
theories/WiresharkTime.v
theories/Cli.v
theories/Flags.v
theories/WiresharkFacts.v
theories/WiresharkTimeFacts.v
theories/CliFacts.v
theories/CodegenSpec.v
theories/Wire.v
theories/CodegenFacts.v
theories/CodegenInv.v
theories/CodegenDecl.v
theories/CodegenTag.v
theories/CodegenTerm.v
theories/CodegenSupp.v
theories/GoifyFacts.v
theories/CodegenShape.v
theories/CodegenNames.v
theories/CodegenLocal.v
theories/CodegenMono.v
theories/CodegenChoice.v
theories/WireFacts.v
theories/WireSend.v
theories/Recursion.v
theories/Automaton.v
theories/DriverTables.v
theories/DriverFacts.v
theories/DriverRun.v
theories/ActionSound.v
theories/GrammarFacts.v
theories/DriverSound.v
theories/Pointers.v
theories/MemFacts.v
theories/PointerFacts.v
theories/FromText.v
theories/Viable.v
theories/ErrorToken.v
theories/Conflicts.v
theories/Lookahead.v
theories/LookTables.v
theories/Complete.v
theories/Exact.v
theories/ExactRun.v
theories/DriverSim.v
theories/LexErr.v
theories/LexTotal.v
theories/LexSpec.v
theories/LexEq.v
theories/LexRuns.v
theories/LexFacts.v
theories/LexWords.v
theories/LexProps.v
theories/Utf8Facts.v
theories/AstFacts.v
theories/AstInd.v
theories/ParserFacts.v
theories/ParserRuns.v
theories/ParserComplete.v
theories/LexFail.v
theories/LexSim.v
theories/BufioSim.v
theories/Render.v
theories/RenderLex.v
theories/RenderFacts.v
theories/RenderTypes.v
theories/RenderModule.v
theories/Words.v
theories/Forgotten.v
theories/ForgottenFacts.v
theories/WordsFacts.v
theories/ComponentFacts.v
theories/Structs.v
theories/StructFacts.v
theories/NamesFacts.v
theories/NamesGen.v
theories/ErrorPrefix.v
theories/ErrorRuns.v
theories/Numbers.v
theories/NumbersFacts.v
theories/Numerals.v
theories/NumeralFacts.v
theories/Ranges.v
theories/RangesFacts.v
theories/GoCheck.v
theories/CheckFacts.v
theories/PropsLexer.v
theories/PropsParser.v
theories/PropsReader.v
theories/PropsRender.v
theories/PropsWords.v
theories/PropsNumbers.v
theories/PropsTools.v
theories/PropsCodegen.v
theories/PropsLocal.v
theories/PropsNames.v
theories/PropsErrors.v
theories/PropsFlags.v
theories/PropsWire.v
theories/SoundCheck.v
theories/PropsCompile.v
theories/WireRead.v
theories/WireReadFacts.v
theories/PropsRead.v
theories/PropsChoice.v
theories/GenText.v
theories/ErrorSpec.v
theories/ErrorFacts.v
theories/PropsGenErrors.v
theories/Rename.v
theories/RenameFacts.v
theories/KindSim.v
theories/PropsRename.v
theories/GenStructs.v
theories/PropsStructs.v
theories/WrittenTags.v
theories/WrittenTagsFacts.v
theories/PropsTags.v
theories/ItemLists.v
theories/ItemListsFacts.v
theories/PropsItems.v
theories/Typings.v
theories/TypingsFacts.v
theories/PropsTypings.v
theories/WrittenValues.v
theories/WrittenValuesFacts.v
theories/PropsValues.v
theories/Parts.v
theories/PartsFacts.v
theories/PropsParts.v
theories/DeclText.v
theories/DeclTextFacts.v
theories/PropsDecls.v
theories/Conformance.v
