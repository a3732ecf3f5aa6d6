-Q theories Verif
theories/Base.v
theories/Json.v
theories/Rng.v
theories/Permissions.v
theories/MutationType.v
theories/Traverse.v
theories/SpecTree.v
theories/TraverseFacts.v
theories/TraverseFacts2.v
theories/OpCommon.v
theories/SolMutators.v
theories/VyMutators.v
theories/Comments.v
theories/Language.v
theories/SpecMutation.v
theories/TraverseFacts3.v
theories/Samples.v
theories/Witness.v
theories/PropTraversal.v
theories/JsonFacts.v
theories/SpecOps.v
theories/OpFacts.v
theories/SolFacts.v
theories/VyFacts.v
theories/SpecTotal.v
theories/OpTotal.v
theories/OpTotalVy.v
theories/OpSafe.v
theories/SpecAccept.v
theories/AcceptFacts.v
theories/OpProps.v
theories/SpecOrder.v
theories/SpecClaims.v
theories/OpOrder.v
theories/OpClaims.v
theories/PropOperators.v
theories/SpecComments.v
theories/CommentFacts.v
theories/CommentLoss.v
theories/PropComments.v
theories/SpecJson.v
theories/OpWf.v
theories/JsonLaws.v
theories/PropJson.v
theories/SpecPermissions.v
theories/PermFacts.v
theories/PropPermissions.v
theories/Paths.v
theories/Generator.v
theories/SpecGenerator.v
theories/GenFacts.v
theories/PathFacts.v
theories/SelFacts.v
theories/GenLaws.v
theories/OpStream.v
theories/GenStop.v
theories/GenMore.v
theories/GenWitness.v
theories/PropGenerator.v
theories/Printer.v
theories/VyPrinter.v
theories/SolPrinter.v
theories/SpecPrinter.v
theories/TextFacts.v
theories/LayoutFacts.v
theories/FlowFacts.v
theories/EmitFacts.v
theories/VyEmit.v
theories/SolEmit.v
theories/PrintFacts.v
theories/PrintClaims.v
theories/PropPrinter.v
theories/SpecLiteral.v
theories/LitFacts.v
theories/LitClaims.v
theories/PropLiteral.v
theories/SpecVyText.v
theories/IdealFacts.v
theories/VyText.v
theories/VyTextStmt.v
theories/VyTextClaims.v
theories/PropVyText.v
theories/Prefs.v
theories/Config.v
theories/Compiler.v
theories/Cli.v
theories/SpecPrefs.v
theories/PrefFacts.v
theories/SpecCli.v
theories/CliFacts.v
theories/CliRun.v
theories/PrefClaims.v
theories/CliClaims.v
theories/PropCli.v
theories/SpecRecord.v
theories/RecordFacts.v
theories/RecordWays.v
theories/RecordSite.v
theories/RecordClaims.v
theories/PropRecord.v
theories/Info.v
theories/SpecInfo.v
theories/InfoFacts.v
theories/InfoClaims.v
theories/PropInfo.v
theories/SpecSolText.v
theories/SolText.v
theories/SolTextStmt.v
theories/SolTextTop.v
theories/SolTextClaims.v
theories/PropSolText.v
theories/SpecLocal.v
theories/LocalFacts.v
theories/SpecSolLocal.v
theories/SolLocal.v
theories/SpecVyLocal.v
theories/VyLocal.v
theories/LocalOps.v
theories/LocalText.v
theories/LocalClaims.v
theories/LocalDemo.v
theories/PropLocal.v
theories/SpecGroup.v
theories/GroupFacts.v
theories/GroupOps.v
theories/GroupClaims.v
theories/GroupDemo.v
theories/PropGroup.v
theories/SpecReach.v
theories/ReachFacts.v
theories/ReachOnly.v
theories/ReachVy.v
theories/SpecRun.v
theories/RunReach.v
theories/ReachClaims.v
theories/ReachDemo.v
theories/PropReach.v
theories/SpecPlain.v
theories/PaceFacts.v
theories/PaceSol.v
theories/PaceVy.v
theories/PlainFacts.v
theories/PlainSol.v
theories/PlainVy.v
theories/PlainClaims.v
theories/PropPlain.v
theories/KeepFacts.v
theories/KeepSol.v
theories/KeepVy.v
theories/KeepClaims.v
theories/PropKeep.v
theories/SpecInput.v
theories/InputFacts.v
theories/InputClaims.v
theories/PropInput.v
theories/SpecVyRead.v
theories/VyReadLex.v
theories/VyReadToks.v
theories/VyReadParse.v
theories/VyReadStmt.v
theories/VyReadDef.v
theories/VyReadClaims.v
theories/PropVyRead.v
theories/SpecVyEdit.v
theories/VyReadNote.v
theories/VyNoteExec.v
theories/VyNoteText.v
theories/VyNoteClaims.v
theories/PropVyNote.v
theories/VyPlace.v
theories/VyEditFacts.v
theories/VyEditClaims.v
theories/VyEditDemo.v
theories/PropVyEdit.v
theories/SpecSolRead.v
theories/SolReadLex.v
theories/SolReadToks.v
theories/SolReadParse.v
theories/SolReadExp.v
theories/SolReadToks2.v
theories/SolReadToks3.v
theories/SolReadVar.v
theories/SolReadStmt.v
theories/SolReadTop.v
theories/SolReadClaims.v
theories/PropSolRead.v
theories/SpecSolEdit.v
theories/SolPlace.v
theories/SolMade.v
theories/SolStrip.v
theories/SolEditFacts.v
theories/SolEditClaims.v
theories/SolEditDemo.v
theories/PropSolEdit.v
theories/SpecSolNote.v
theories/SolNoteLex.v
theories/SolNoteExec.v
theories/SolNoteText.v
theories/SolNoteClaims.v
theories/SolNoteDemo.v
theories/PropSolNote.v
theories/SolHouse.v
theories/SolHouseUnit.v
theories/SolHouseNote.v
theories/SolMutantClaims.v
theories/SolMutantDemo.v
theories/PropSolMutant.v
theories/SpecSolIdle.v
theories/SolIdle.v
theories/SolIdleClaims.v
theories/SolIdleDemo.v
theories/PropSolIdle.v
theories/SpecVyIdle.v
theories/VyIdle.v
theories/VyIdleClaims.v
theories/PropVyIdle.v
theories/SpecVyTight.v
theories/VyTight.v
theories/VyTightClaims.v
theories/PropVyTight.v
theories/SpecSolTight.v
theories/SolTightLevel.v
theories/SolTight.v
theories/SolTightClaims.v
theories/PropSolTight.v
theories/SolWords.v
theories/SolWordsText.v
theories/SpecSolOnce.v
theories/SolOnce.v
theories/SolOnceClaims.v
theories/PropSolOnce.v
theories/VyWords.v
theories/VyWordsText.v
theories/SpecVyOnce.v
theories/VyOnce.v
theories/VyOnceClaims.v
theories/PropVyOnce.v
theories/SpecDisk.v
theories/DiskFacts.v
theories/DiskClaims.v
theories/DiskDemo.v
theories/PropDisk.v
theories/SolDisk.v
theories/PropSolDisk.v
theories/VyDisk.v
theories/PropVyDisk.v
theories/SpecDocker.v
theories/DockerFacts.v
theories/PropDocker.v
theories/Main.v
theories/SpecMain.v
theories/MainFacts.v
theories/MainClaims.v
theories/PropMain.v
theories/SpecYul.v
theories/YulText.v
theories/YulClaims.v
theories/PropYul.v
theories/SpecYulRead.v
theories/YulRead.v
theories/YulReadClaims.v
theories/PropYulRead.v
theories/SpecDoc.v
theories/DocFacts.v
theories/DocClaims.v
theories/PropDoc.v
theories/DocWhole.v
theories/DocTree.v
theories/DocDemo.v
theories/SpecVyDoc.v
theories/VyDocFacts.v
theories/VyDocClaims.v
theories/VyDocTree.v
theories/PropVyDoc.v
theories/SpecAsmDoc.v
theories/AsmDoc.v
theories/PropAsmDoc.v
theories/AsmDocTree.v
theories/PropAsmDocTree.v
theories/PropDocTree.v
