-Q theories Verif

theories/GoBase.v
theories/ModelUtil.v
theories/ModelNet.v
theories/SpecNet.v
theories/FactsBase.v
theories/ProofNet.v
theories/PropsNet.v
theories/ModelConn.v
theories/SpecConn.v
theories/ProofConn.v
theories/PropsConn.v
theories/ModelClose.v
theories/PropsClose.v
theories/SpecNone.v
theories/ProofNone.v
theories/ProofNone2.v
theories/PropsNone.v
theories/ModelResultSet.v
theories/SpecResultSet.v
theories/ProofResultSet.v
theories/PropsResultSet.v
theories/ModelAggr.v
theories/SpecAggr.v
theories/ProofAggr.v
theories/ProofFloat.v
theories/ProofAggr2.v
theories/ProofAggr3.v
theories/PropsAggr.v
theories/ModelFn.v
theories/SpecFn.v
theories/ProofFn.v
theories/ProofFloat2.v
theories/PropsFn.v
theories/ModelNum.v
theories/ModelQuery.v
theories/SpecQuery.v
theories/ProofNum.v
theories/ProofQuery.v
theories/PropsQuery.v
theories/ModelEbnf.v
theories/ModelGrammar.v
theories/ModelLex.v
theories/ModelVisitor.v
theories/SpecParse.v
theories/ProofEbnf.v
theories/ProofMachine.v
theories/ProofParse.v
theories/ProofLex.v
theories/ProofRound.v
theories/ProofRound2.v
theories/SpecRound.v
theories/ProofRound3.v
theories/ProofRound4.v
theories/ProofRound5.v
theories/ProofRound6.v
theories/ProofRound7.v
theories/ProofRound8.v
theories/ProofRound9.v
theories/ProofRound10.v
theories/ProofRound11.v
theories/ProofRound12.v
theories/SpecBatch.v
theories/ProofRound13.v
theories/SpecWhere.v
theories/ProofWhere.v
theories/ProofInsert.v
theories/SpecQuoted.v
theories/ProofQuoted.v
theories/PropsQuoted.v
theories/ModelSqltest.v
theories/SpecSqltest.v
theories/ProofSqltest.v
theories/PropsSqltest.v
theories/ModelFunc.v
theories/SpecFunc.v
theories/ProofFunc.v
theories/PropsFunc.v
theories/PropsConfig.v
theories/ModelMake.v
theories/SpecMake.v
theories/PropsMake.v
theories/ModelFile.v
theories/SpecFile.v
theories/ProofFile.v
theories/PropsFile.v
theories/ProofSelect.v
theories/SpecSelect.v
theories/ProofSelect2.v
theories/PropsSelect.v
theories/ProofTable.v
theories/ProofTable2.v
theories/SpecTable.v
theories/ProofTable3.v
theories/PropsTable.v
theories/ProofValue.v
theories/SpecValue.v
theories/ProofValue2.v
theories/PropsValue.v
theories/SpecSession.v
theories/ProofSession.v
theories/SpecPanic.v
theories/ProofPanic.v
theories/SpecLost.v
theories/ProofLost.v
theories/SpecSpace.v
theories/ProofSpace.v
theories/PropsParse.v
theories/PropsRound.v
theories/PropsTree.v
theories/PropsSpace.v
theories/ModelErr.v
theories/SpecErr.v
theories/PropsErr.v
theories/ModelSystem.v
theories/SpecSystem.v
theories/ProofSystem.v
theories/ProofSystem2.v
theories/PropsSystem.v
theories/PropsNames.v
theories/ModelBind.v
theories/SpecBind.v
theories/ProofBind.v
theories/ProofBind2.v
theories/ProofTime.v
theories/ProofText.v
theories/PropsBind.v
theories/ModelAggregate.v
theories/SpecAggregate.v
theories/ProofAggregate.v
theories/ProofAggregate2.v
theories/PropsAggregate.v
theories/ModelOptions.v
theories/SpecOptions.v
theories/ProofOptions.v
theories/PropsOptions.v
theories/SpecCase.v
theories/ProofCase.v
theories/ProofCase2.v
theories/PropsCase.v
theories/ModelErrors.v
theories/SpecErrors.v
theories/PropsErrors.v
theories/ModelColumn.v
theories/ModelGroup.v
theories/SpecColumn.v
theories/PropsColumn.v
theories/PropsGroup.v
theories/SpecLexer.v
theories/ProofLexer.v
theories/PropsLexer.v
theories/SpecSchema.v
theories/PropsSchema.v
theories/ProofTest.v
theories/ProofTest2.v
theories/SpecTest.v
theories/ProofTest3.v
theories/ProofTest4.v
theories/ProofRefuse.v
theories/ProofTest5.v
theories/PropsTest.v
theories/ProofRefuse2.v
theories/ProofRefuse3.v
theories/SpecRefuse.v
theories/ProofRefuse4.v
theories/SpecStart.v
theories/ProofStart.v
theories/PropsRefuse.v
theories/SpecSpell.v
theories/ProofSpell.v
theories/ProofSpell2.v
theories/ProofSpell3.v
theories/ProofExplain.v
theories/PropsSpell.v
theories/ProofLead.v
theories/PropsLead.v
theories/SpecType.v
theories/ProofType.v
theories/ProofNone3.v
theories/ProofTogether.v
theories/PropsType.v
theories/PropsExecutors.v
theories/SpecSource.v
theories/ProofAlias.v
theories/ProofSource.v
theories/ProofSource2.v
theories/ProofSource3.v
theories/ProofSource4.v
theories/PropsSource.v
theories/PropsMore.v
theories/PropsBack.v
theories/PropsThree.v
theories/PropsOrder.v
theories/PropsAfter.v
