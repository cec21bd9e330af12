-Q theories Verif
theories/Chars.v
theories/Syntax.v
theories/First.v
theories/Utf8.v
theories/View.v
theories/Eval.v
theories/Api.v
theories/Grammar.v
theories/Actions.v
theories/Parser.v
theories/Spec.v
theories/EvalMono.v
theories/EvalInv.v
theories/CharProofs.v
theories/EvalSem.v
theories/SpecProps.v
theories/EvalRefine.v
theories/SpecCut.v
theories/ApiProofs.v
theories/EvalTop.v
theories/OptProofs.v
theories/Checks.v
theories/EvalSound.v
theories/Match.v
theories/Term.v
theories/Mode.v
theories/Sim.v
theories/Utf8Proofs.v
theories/Views.v
theories/Anchor.v
theories/Tail.v
theories/Constructs.v
theories/Repeat.v
theories/Behind.v
theories/Classes.v
theories/Iter.v
theories/IterProofs.v
theories/Results.v
theories/FixedString.v
theories/ParserProofs.v
theories/Literals.v
theories/Numbering.v
theories/Fusion.v
theories/FusionRuns.v
theories/PlainNumbers.v
theories/Pattern.v
theories/PatternRead.v
theories/PatternParse.v
theories/PatternLink.v
theories/Switches.v
theories/Properties1.v
theories/Properties2.v
theories/Properties3.v
theories/Properties4.v
theories/Properties5.v
theories/Properties6.v
theories/Properties7.v
theories/Properties8.v
theories/Properties9.v
theories/Properties10.v
theories/Properties11.v
theories/UnicodeData.v
theories/Unicode.v
theories/UnicodeSearch.v
theories/UnicodeRef.v
theories/UnicodeTables.v
theories/UnicodeProps.v
theories/UnicodeFacts.v
theories/UnicodeNames.v
theories/Properties12.v
theories/ModeSem.v
theories/ModeSound.v
theories/ModeScope.v
theories/ModeCalls.v
theories/ModeEnum.v
theories/ModeRefine.v
theories/ModeCut.v
theories/ModeOpt.v
theories/Follow.v
theories/Loosen.v
theories/ModeTop.v
theories/Properties13.v
theories/Compiles.v
theories/Total.v
theories/ModeText.v
theories/Properties14.v
theories/Lang.v
theories/Textbook.v
theories/Properties15.v
theories/ErrorPos.v
theories/GramFile.v
theories/Gram.v
theories/Properties16.v
theories/RangeSim.v
theories/Properties17.v
theories/Blind.v
theories/Combine.v
theories/Properties18.v
theories/IterSplit.v
theories/Properties19.v
theories/Number.v
theories/Properties20.v
theories/Properties21.v
theories/Properties22.v
theories/Cost.v
theories/CostRank.v
theories/CostRun.v
theories/CostRange.v
theories/Properties23.v
theories/PointSet.v
theories/Properties24.v
theories/Properties25.v
theories/MsvcEval.v
theories/Properties26.v
theories/RangeSpec.v
theories/Properties27.v
theories/Utf8Iter.v
theories/Properties28.v
theories/SameType.v
theories/RangeEnd.v
theories/Properties29.v
theories/Equiv.v
theories/Properties30.v
theories/AnySearch.v
theories/Context.v
theories/Properties31.v
theories/Trampoline.v
theories/Properties32.v
theories/Nfa.v
theories/Properties33.v
theories/Possess.v
theories/Committed.v
theories/CommittedRefine.v
theories/CommittedTop.v
theories/Properties34.v
theories/RepoTests.v
theories/RepoData.v
theories/Primes.v
theories/Properties35.v
theories/Lexical.v
theories/Fields.v
theories/ReadMe.v
theories/Properties36.v
theories/Words.v
theories/Properties37.v
theories/Tokens.v
theories/Properties38.v
theories/RangeExact.v
theories/Properties39.v
theories/Utf8Subject.v
theories/Properties40.v
theories/Refactor.v
theories/Properties41.v
theories/Blank.v
theories/Pipe.v
theories/Properties42.v
theories/Ctll.v
theories/CtllCheck.v
theories/CtllPcre.v
theories/Properties43.v
theories/Frame.v
theories/Properties44.v
theories/HardError.v
theories/Properties45.v
theories/Programs.v
theories/Properties46.v
theories/Properties47.v
theories/Properties48.v
theories/Full.v
theories/Properties49.v
theories/Neat.v
theories/Properties50.v
theories/TypeList.v
theories/Properties51.v
