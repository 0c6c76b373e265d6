-Q theories Verif
theories/Chars.v
theories/Lexer.v
theories/Ast.v
theories/Grammar.v
theories/Cfg.v
theories/Tables.v
theories/Parser.v
theories/Types.v
theories/Visitor.v
theories/Emitter.v
theories/Contract.v
theories/LexSpec.v
theories/LexerProofs.v
theories/LexStep.v
theories/LexSegment.v
theories/LexFacts.v
theories/LexWritten.v
theories/PropLexer.v
theories/LrCheck.v
theories/LrFacts.v
theories/LrProofs.v
theories/GrammarLink.v
theories/PropParser.v
theories/TestsParser.v
theories/EmitSpec.v
theories/TypeFacts.v
theories/EmitTypes.v
theories/EmitProgram.v
theories/EmitInv.v
theories/Erase.v
theories/EraseFacts.v
theories/EmitErase.v
theories/EmitSig.v
theories/EmitOk.v
theories/PropParse2.v
theories/Print.v
theories/PrintFacts.v
theories/PrintRead.v
theories/PropPrint.v
theories/DerInv.v
theories/EmitSteps.v
theories/EmitFail.v
theories/Spell.v
theories/SpellFacts.v
theories/Spaced.v
theories/PropEmit.v
theories/Trace.v
theories/TraceFacts.v
theories/Abort.v
theories/PropVisitor.v
theories/Reads.v
theories/ReadsFacts.v
theories/QuirkFacts.v
theories/AddressKeys.v
theories/EventFacts.v
theories/PropQuirks.v
theories/PropTypes.v
theories/Utf8.v
theories/PropApi.v
theories/Marks.v
theories/Spans.v
theories/PropSpans.v
theories/DebugText.v
theories/DebugFacts.v
theories/ErrorText.v
theories/ErrorFacts.v
theories/EmitErrs.v
theories/PropErrors.v
theories/Derive.v
theories/DeriveFacts.v
theories/PropDebug.v
theories/Tour.v
theories/PropTour.v
theories/PropSr.v
theories/EmitOracle.v
theories/PropOracle.v
theories/Names.v
theories/Range.v
theories/EmitRange.v
theories/PropRange.v
theories/Forbidden.v
theories/PropDisplay.v
theories/Local.v
theories/PropLocal.v
theories/Brackets.v
theories/Nesting.v
theories/Takes.v
theories/TakesFacts.v
theories/PropTakes.v
theories/Budget.v
theories/BudgetFacts.v
theories/PropCost.v
theories/Origin.v
theories/OriginFacts.v
theories/PropOrigin.v
theories/LexCost.v
theories/PropLexCost.v
theories/TestsContracts.v
theories/Rename.v
theories/RenameSpec.v
theories/RenameDer.v
theories/RenameEmit.v
theories/PropRename.v
theories/ComposeSpec.v
theories/ComposeDer.v
theories/ComposeEmit.v
theories/PropCompose.v
theories/Position.v
theories/PropPosition.v
theories/Regex.v
theories/RegexFacts.v
theories/PropRegex.v
theories/Machine.v
theories/MachineFacts.v
theories/PropMachine.v
theories/Declared.v
theories/View.v
theories/AstView.v
theories/AstViewFacts.v
theories/AstViewGood.v
theories/ResultView.v
theories/CompareFacts.v
theories/PropCompare.v
theories/PropReadErrors.v
theories/Pretty.v
theories/PropPretty.v
theories/Builder.v
theories/PropBuilder.v
theories/PropPanics.v
theories/PropReplace.v
theories/PropChars.v
theories/RenameFix.v
theories/PropLiterals.v
theories/PropSize.v
theories/PropBlame.v
theories/PropSpacing.v
theories/PropMoves.v
theories/Remap.v
theories/RemapFacts.v
theories/PropTrees.v
theories/PropBetween.v
theories/PropCut.v
