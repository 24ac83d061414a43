-Q theories Verif
theories/PyBase.v
theories/PyStr.v
theories/PyDict.v
theories/Column.v
theories/Index.v
theories/Table.v
theories/Ops.v
theories/Diff.v
theories/Mygration.v
theories/SpecServer.v
theories/SpecDiff.v
theories/Samples.v
theories/Facts.v
theories/StrFacts.v
theories/ExecFacts.v
theories/DiffFacts.v
theories/TableFacts.v
theories/RenderFacts.v
theories/SpecColumn.v
theories/DiffMore.v
theories/ColFacts.v
theories/PropsDiff.v
theories/SpecPlan.v
theories/PlanFacts.v
theories/PlanExec.v
theories/PlanMore.v
theories/PlanCycle.v
theories/PropsPlan.v
theories/Database.v
theories/Commands.v
theories/Engine.v
theories/Parsers.v
theories/Reader.v
theories/EngineFacts.v
theories/SpecValid.v
theories/ValidFacts.v
theories/ValidTable.v
theories/ValidMore.v
theories/ValidGlobal.v
theories/PropsValid.v
theories/PropsCommand.v
theories/SpecTable.v
theories/MutFacts.v
theories/ApplyFacts.v
theories/PropsTable.v
theories/SpecRows.v
theories/RowFacts.v
theories/RowRead.v
theories/PropsRows.v
theories/SpecSql.v
theories/SqlFacts.v
theories/SqlStmt.v
theories/NumFacts.v
theories/PropsSql.v
theories/ParseFacts.v
theories/ReadFacts.v
theories/ReadMore.v
theories/PropsParse.v
theories/SpecLive.v
theories/PropsLive.v
theories/Dotenv.v
theories/ConfFacts.v
theories/PropsConf.v
theories/SpecRead.v
theories/SpecWrite.v
theories/RoundText.v
theories/RoundItems.v
theories/RoundCols.v
theories/RoundColumn.v
theories/RoundKeys.v
theories/RoundFk.v
theories/RoundDefs.v
theories/RoundTable.v
theories/RoundCreate.v
theories/RoundRead.v
theories/WriteCreate.v
theories/SpecInline.v
theories/RoundInline.v
theories/SpecStored.v
theories/StoredFacts.v
theories/PropsCreate.v
theories/RoundInsert.v
theories/SpecMany.v
theories/RoundMany.v
theories/RoundRows.v
theories/PropsRound.v
theories/PropsInsert.v
theories/PropsWrite.v
theories/SpecEnum.v
theories/SpecNote.v
theories/SpecActs.v
theories/SpecOther.v
theories/OtherFacts.v
theories/PropsOther.v
theories/EnumFacts.v
theories/PropsEnum.v
theories/PropsMany.v
theories/PropsIgnored.v
theories/Suite.v
theories/SuiteEngine.v
theories/SuiteDotenv.v
theories/SuiteParsers.v
theories/SuiteDefinitions.v
theories/SuiteIntegration.v
theories/Cli.v
theories/CliFacts.v
theories/PropsCli.v
theories/PropsFiles.v
theories/PropsSeen.v
theories/AgainFacts.v
theories/PropsAgain.v
theories/SpecLinks.v
theories/LinkFacts.v
theories/ResumeFacts.v
theories/LinkMore.v
theories/PropsLinks.v
theories/ExactSql.v
theories/PropsExact.v
theories/PropsSync.v
theories/SpecData.v
theories/LocalFacts.v
theories/PropsLocal.v
theories/SpecOrder.v
theories/SpecAccept.v
theories/AcceptFacts.v
theories/OrderFacts.v
theories/FileFacts.v
theories/CheckFacts.v
theories/PropsOrder.v
theories/PropsCheck.v
theories/PropsRuns.v
theories/MeaningFacts.v
theories/PropsMeaning.v
theories/SpecWarn.v
theories/WarnFacts.v
theories/PropsWarn.v
theories/PropsSize.v
theories/SpecConf.v
theories/ConfExact.v
theories/PropsLines.v
theories/PropsHistory.v
theories/SpecDefs.v
theories/DefFacts.v
theories/PropsDefs.v
theories/InlineFacts.v
theories/PropsInline.v
theories/SpecCase.v
theories/CaseFacts.v
theories/PropsCase.v
theories/SpecTrail.v
theories/RoundTrail.v
theories/PropsTrail.v
theories/PropsTold.v
theories/SpecCut.v
theories/RoundCut.v
theories/SpecRemark.v
theories/SpecInside.v
theories/RemarkFacts.v
theories/PropsCut.v
theories/InsideFacts.v
theories/PropsRemark.v
theories/PropsInside.v
theories/PropsList.v
theories/SpecHalt.v
theories/HaltFacts.v
theories/PropsHalt.v
theories/PropsAbsent.v
theories/SpecNamed.v
theories/NamedFacts.v
theories/PropsNamed.v
theories/PropsTight.v
theories/SpecLate.v
theories/LateFacts.v
theories/PropsLate.v
theories/SpecOdd.v
theories/OddFacts.v
theories/PropsOdd.v
theories/SpecHold.v
theories/HoldFacts.v
theories/PropsHold.v
theories/SpecSole.v
theories/SoleFacts.v
theories/PropsSole.v
theories/PropsDot.v
theories/PropsTurn.v
theories/PropsPair.v
theories/SpecCrash.v
theories/CrashFacts.v
theories/PropsCrash.v
theories/SpecStop.v
theories/StopFacts.v
theories/PropsStop.v
theories/SameFacts.v
theories/PropsSame.v
theories/ResumeMore.v
theories/PropsResume.v
theories/SpecUnique.v
theories/UniqueFacts.v
theories/PropsUnique.v
theories/SpecRefer.v
theories/PropsRefer.v
theories/PropsFirst.v
theories/PropsAsked.v
theories/PropsDefault.v
theories/PropsJson.v
theories/PropsLost.v
theories/ActFacts.v
theories/PropsActs.v
theories/PropsNote.v
