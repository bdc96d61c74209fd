-Q theories Verif
theories/Base.v
theories/Utf8.v
theories/Str.v
theories/Net.v
theories/Trie.v
theories/Extract.v
theories/RepoTests.v
theories/Chars.v
theories/Host.v
theories/Walk.v
theories/BaseFacts.v
theories/Utf8Facts.v
theories/StrFacts.v
theories/HostFacts.v
theories/WalkFacts.v
theories/Addr.v
theories/NetFacts.v
theories/Parse.v
theories/ParseFacts.v
theories/PropStr.v
theories/UrlSpec.v
theories/UrlFacts.v
theories/ExtractFacts.v
theories/OutcomeFacts.v
theories/UrlProofs.v
theories/Rfc.v
theories/CharProofs.v
theories/RuleSpec.v
theories/TrieFacts.v
theories/RuleProofs.v
theories/PslProofs.v
theories/HostProofs.v
theories/VariantProofs.v
theories/RelSpec.v
theories/RelProofs.v
theories/ExampleBase.v
theories/PropUrl.v
theories/PropRules.v
theories/Psl.v
theories/World.v
theories/Update.v
theories/ListSpec.v
theories/ListFacts.v
theories/UpdateSpec.v
theories/WorldFacts.v
theories/NewFacts.v
theories/UpdateProofs.v
theories/DiskProofs.v
theories/DiskProofs2.v
theories/FileProofs.v
theories/ExampleDisk.v
theories/PropPsl.v
theories/Calls.v
theories/CallFacts.v
theories/CallProofs.v
theories/PropCalls.v
theories/Print.v
theories/PrintSpec.v
theories/PrintProofs.v
theories/PropPrint.v
theories/GapProofs.v
theories/Survey.v
theories/Builtin.v
theories/BuiltinSpec.v
theories/BuiltinProofs.v
theories/PropBuiltin.v
theories/PropRel.v
theories/EndProofs.v
theories/PropEnd.v
theories/Idna.v
theories/PunyProofs.v
theories/IdnaSpec.v
theories/IdnaProofs.v
theories/IdnaBuiltin.v
theories/Gen.v
theories/GenSpec.v
theories/GenProofs.v
theories/PropGen.v
theories/ErrSpec.v
theories/InvalidProofs.v
theories/ErrProofs.v
theories/CompleteProofs.v
theories/PropErr.v
theories/CaseProofs.v
theories/AceProofs.v
theories/PropIdna.v
theories/NewSpec.v
theories/NewProofs.v
theories/LibSpec.v
theories/LibProofs.v
theories/PropLib.v
theories/ExactSpec.v
theories/ExactProofs.v
theories/PropExact.v
theories/ExactDisk.v
theories/PropCache.v
theories/RaceSpec.v
theories/RaceProofs.v
theories/PropRace.v
theories/FootSpec.v
theories/FootProofs.v
theories/CostSpec.v
theories/CostProofs.v
theories/PropFoot.v
theories/FinishSpec.v
theories/FinishProofs.v
theories/PropFinish.v
theories/DivergeSpec.v
theories/DivergeProofs.v
theories/DivergeBuiltin.v
theories/PropDiverge.v
theories/SplitSpec.v
theories/SplitProofs.v
theories/SplitBuiltin.v
theories/PropSplit.v
theories/LinSpec.v
theories/LinProofs.v
theories/LinExact.v
theories/PropLin.v
theories/SpellProofs.v
theories/PropSpell.v
theories/OrderSpec.v
theories/OrderProofs.v
theories/PropOrder.v
theories/BrowserSpec.v
theories/BrowserProofs.v
theories/PropBrowser.v
theories/RuleCharProofs.v
theories/PropRuleChars.v
theories/PathProofs.v
theories/PropPath.v
theories/CrashSpec.v
theories/CrashProofs.v
theories/PropCrash.v
theories/LocalSpec.v
theories/LocalProofs.v
theories/LocalBuiltin.v
theories/PropLocal.v
theories/Heap.v
theories/HeapSpec.v
theories/HeapFacts.v
theories/HeapProofs.v
theories/PropHeap.v
theories/Cli.v
theories/CliSpec.v
theories/CliProofs.v
theories/PropCli.v
theories/Procs.v
theories/ProcSpec.v
theories/ProcProofs.v
theories/ProcExact.v
theories/PropProc.v
theories/Logs.v
theories/LogSpec.v
theories/LogProofs.v
theories/LogTold.v
theories/LogExtract.v
theories/LogMore.v
theories/PropLog.v
theories/Weak.v
theories/WeakSpec.v
theories/SeenSpec.v
theories/WeakProofs.v
theories/WeakAny.v
theories/PropWeak.v
theories/WeakRace.v
theories/PropWeakRace.v
theories/SeenProofs.v
theories/PropSeen.v
theories/RuneSet.v
theories/RuneSetProofs.v
theories/PropRuneSet.v
theories/Wide.v
theories/WideSpec.v
theories/WideProofs.v
theories/PropWide.v
theories/Colour.v
theories/ColourSpec.v
theories/ColourProofs.v
theories/PropColour.v
theories/Steps.v
theories/StepsProofs.v
theories/PropSteps.v
theories/SizeSpec.v
theories/SizeProofs.v
theories/PropSize.v
theories/LoadSteps.v
theories/LoadStepsProofs.v
theories/LoadIdna.v
theories/PropLoad.v
theories/Table.v
theories/TableSpec.v
theories/TableProofs.v
theories/TableFacts.v
theories/TableTries.v
theories/TableLimit.v
theories/PropTable.v
theories/Demo.v
theories/DemoSpec.v
theories/DemoProofs.v
theories/DemoText.v
theories/PropDemo.v
