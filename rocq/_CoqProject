-Q theories Verif
theories/GenTokenKind.v
theories/GenLongNames.v
theories/Base.v
theories/Source.v
theories/LongNames.v
theories/WLChar.v
theories/ByteDecoder.v
theories/CharDecoder.v
theories/Iter.v
theories/SpecText.v
theories/Decode.v
theories/TextProofs.v
theories/Logic.v
theories/LongNamesProofs.v
theories/WlDecode.v
theories/SpecReader.v
theories/ReaderProofs.v
theories/PropsReader.v
theories/GenPrec.v
theories/GenOps.v
theories/GenSymbols.v
theories/TokenKind.v
theories/Parselets.v
theories/GenParselets.v
theories/TableProofs.v
theories/PropsTables.v
theories/Format.v
theories/Tokenizer.v
theories/FormatProofs.v
theories/TokLogic.v
theories/TokenizerProofs.v
theories/SpecTokenizer.v
theories/TokenLoop.v
theories/TokSim.v
theories/TokAgree.v
theories/TokSpecs.v
theories/TokResults.v
theories/PropsTokenizer.v
theories/FormatRound.v
theories/PropsFormat.v
theories/Utils.v
theories/SpecMisc.v
theories/MiscProofs.v
theories/PropsMisc.v
theories/Cst.v
theories/SpecCst.v
theories/CstProofs.v
theories/PropsCst.v
theories/Parser.v
theories/SpecParser.v
theories/SpecParse.v
theories/ParserLogic.v
theories/ParserRules.v
theories/ParserProofs.v
theories/ParserResults.v
theories/ErrorReparse.v
theories/ReparseProofs.v
theories/SpecReparse.v
theories/ReparseTheorems.v
theories/PropsReparse.v
theories/ParserTheorems.v
theories/PropsParser.v
theories/SpecLex.v
theories/LexProofs.v
theories/LexChars.v
theories/LexSymbols.v
theories/LexNumbers.v
theories/LexMore.v
theories/LexResults.v
theories/PropsLex.v
theories/SpecFiles.v
theories/LexFiles.v
theories/PropsFiles.v
theories/Ranges.v
theories/BoxPosition.v
theories/SpecBox.v
theories/BoxProofs.v
theories/PropsRanges.v
theories/Ast.v
theories/Abstract.v
theories/SpecAbstract.v
theories/AbstractProofs.v
theories/AbstractShape.v
theories/AbstractTotal.v
theories/AbstractTheorems.v
theories/PropsAbstract.v
theories/SpecMove.v
theories/AbstractMap.v
theories/AbstractSame.v
theories/SpecItems.v
theories/AbstractKeep.v
theories/AbstractLayout.v
theories/PropsAst.v
theories/SpecPlace.v
theories/AbstractPlace.v
theories/PropsPlace.v
theories/SpecValue.v
theories/AbstractValue.v
theories/PropsValue.v
theories/Link.v
theories/SpecLink.v
theories/LinkProofs.v
theories/LinkTotal.v
theories/PropsLink.v
theories/LinkRead.v
theories/LinkPlaces.v
theories/PropsLinkRead.v
theories/SpecIssues.v
theories/AbstractIssues.v
theories/AbstractReports.v
theories/PropsIssues.v
theories/SpecRepair.v
theories/ParserRepair.v
theories/RepairProofs.v
theories/PropsRepair.v
theories/SpecAgree.v
theories/ParserAgree.v
theories/PropsAgree.v
theories/SpecGaps.v
theories/ParserGaps.v
theories/PropsGaps.v
theories/SpecLines.v
theories/TokKinds.v
theories/ParserLines.v
theories/PropsLines.v
theories/SpecPrint.v
theories/ParserPrint.v
theories/PrintResults.v
theories/PropsPrint.v
theories/SpecWorth.v
theories/WorthProofs.v
theories/PropsWorth.v
theories/ConformRust.v
theories/ConformWl.v
theories/SpecErrors.v
theories/AbstractErrors.v
theories/PropsErrors.v
theories/FmtExpr.v
theories/SpecFmt.v
theories/FmtProofs.v
theories/FmtTotal.v
theories/PropsFmt.v
theories/SpecSlots.v
theories/ParserSlots.v
theories/PropsSlots.v
theories/ParserFlag.v
theories/PropsFlag.v
theories/Requests.v
theories/SpecRequests.v
theories/RequestsProofs.v
theories/PropsRequests.v
theories/GenAscii.v
theories/Suggestions.v
theories/SpecSuggestions.v
theories/SuggestionsProofs.v
theories/SuggestionsEscapes.v
theories/PropsSuggestions.v
theories/Spelling.v
theories/SpecSpelling.v
theories/SpellingProofs.v
theories/SpellingReader.v
theories/SpellingSilent.v
theories/PropsSpelling.v
theories/Spacing.v
theories/SpecSpacing.v
theories/SpacingProofs.v
theories/SpacingSplit.v
theories/PropsSpacing.v
