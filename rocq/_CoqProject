-Q theories Verif
theories/GoBase.v
theories/GoNum.v
theories/Sha256.v
theories/Ripemd160.v
theories/Base58.v
theories/GoRand.v
theories/Model.v
theories/SpecApi.v
theories/EcRef.v
theories/NumFacts.v
theories/HexFacts.v
theories/Base58Facts.v
theories/Spec.v
theories/SpecFacts.v
theories/PrivFacts.v
theories/GenFacts.v
theories/CombFacts.v
theories/PrivProps.v
theories/Witness.v
theories/RestatePriv.v
theories/PropertiesPrivate.v
theories/PubFacts.v
theories/PropertiesPublic.v
theories/MnemFacts.v
theories/MnemProps.v
theories/SeedFacts.v
theories/WordsEnglish.v
theories/WordsFrench.v
theories/WordsJapanese.v
theories/WordsItalian.v
theories/WordsSpanish.v
theories/WordsKorean.v
theories/WordsCzech.v
theories/WordsChineseTraditional.v
theories/WordsChineseSimplified.v
theories/WordFacts.v
theories/MnemWitness.v
theories/RestateMnem.v
theories/PropertiesMnemonic.v
theories/NumTheory.v
theories/Primes.v
theories/Field.v
theories/Curve.v
theories/CurveMul.v
theories/CurveGroup.v
theories/CurveSpec.v
theories/EcdsaContract.v
theories/EcFacts.v
theories/FastLib.v
theories/PubCurve.v
theories/PropertiesCurve.v
theories/Heap.v
theories/HeapSem.v
theories/HeapWp.v
theories/HeapRules.v
theories/HeapFacts.v
theories/HeapRand.v
theories/HeapCalls.v
theories/HeapProps.v
theories/HeapLib.v
theories/PropertiesHeap.v
theories/SpecMore.v
theories/Uniform.v
theories/Workflow.v
theories/CallFacts.v
theories/PropertiesMore.v
theories/Counting.v
theories/AnyList.v
theories/ModelPtr.v
theories/PtrFacts.v
theories/PropertiesCount.v
theories/SpecText.v
theories/ModelLower.v
theories/TextFacts.v
theories/ListFacts.v
theories/PropertiesText.v
theories/Imp.v
theories/ImpModel.v
theories/ImpFacts.v
theories/PropertiesLoops.v
theories/SpecStream.v
theories/ModelStream.v
theories/StreamFacts.v
theories/PropertiesStream.v
theories/RepoTests.v
theories/Algebra.v
theories/PropertiesAlgebra.v
theories/Depend.v
theories/PropertiesDepend.v
theories/SpecHash.v
theories/HashFacts.v
theories/RmdFacts.v
theories/HashUse.v
theories/PropertiesHash.v
theories/SpecSession.v
theories/Session.v
theories/SessionWitness.v
theories/PropertiesSession.v
theories/GoSyntax.v
theories/GoSource.v
theories/GoSem.v
theories/SpecSource.v
theories/SpecShare.v
theories/SourceBase.v
theories/SourcePriv.v
theories/SourcePub.v
theories/SourceSeed.v
theories/SourceMnem.v
theories/SourceAll.v
theories/SourceWitness.v
theories/PropertiesSource.v
theories/SpecRun.v
theories/RunFacts.v
theories/PropertiesRun.v
theories/SpecGo.v
theories/GoFacts.v
theories/PropertiesGo.v
theories/GoTree.v
theories/GoTreeSim.v
theories/SpecConc.v
theories/ConcFacts.v
theories/SpecCrew.v
theories/CrewFacts.v
theories/ConcWitness.v
theories/PropertiesConc.v
theories/GoRename.v
theories/GoRenameRun.v
theories/SpecMachine.v
theories/MachineFacts.v
theories/MachineEnds.v
theories/MachineCrew.v
theories/MachineWitness.v
theories/PropertiesMachine.v
theories/SpecInts.v
theories/IntsFacts.v
theories/PropertiesInts.v
theories/GoText.v
theories/WordsText.v
theories/GoPrint.v
theories/GoFiles.v
theories/ReadFacts.v
theories/WrittenFacts.v
theories/CommentFacts.v
theories/FilesFacts.v
theories/PropertiesFiles.v
theories/ModelTests.v
theories/SpecTests.v
theories/TestsFacts.v
theories/PropertiesTests.v
theories/SpecLibs.v
theories/LibsFacts.v
theories/PropertiesLibs.v
theories/SpecRunInts.v
theories/RunInts.v
theories/PropertiesRunInts.v
theories/ConcInts.v
theories/IntsWitness.v
theories/PropertiesConcInts.v
theories/SpecHistory.v
theories/ShareFacts.v
theories/ShareWitness.v
theories/PropertiesShare.v
