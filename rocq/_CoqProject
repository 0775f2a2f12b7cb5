-Q theories Verif
theories/Base.v
theories/ModelResults.v
theories/BaseFacts.v
theories/SpecResults.v
theories/ProofResults.v
theories/PropResults.v
theories/ModelConfig.v
theories/SpecConfig.v
theories/ProofConfig.v
theories/PropConfig.v
theories/ModelFilter.v
theories/SpecFilter.v
theories/ProofFilter.v
theories/PropFilter.v
theories/ModelOptions.v
theories/SpecOptions.v
theories/ProofOptions.v
theories/PropOptions.v
theories/ModelMain.v
theories/SpecMain.v
theories/ProofMain.v
theories/PropMain.v
theories/ModelDriver.v
theories/SpecDriver.v
theories/ProofDriver.v
theories/PropDriver.v
theories/ModelSource.v
theories/SpecSource.v
theories/ProofSource.v
theories/PropSource.v
theories/ModelAST.v
theories/SpecAST.v
theories/ProofAST.v
theories/SpecCourses.v
theories/SpecFlowGraph.v
theories/SpecAdvice.v
theories/ProofCourses.v
theories/ProofFlowGraph.v
theories/ProofFlowDraw.v
theories/ProofAdvice.v
theories/PropAST.v
theories/PropCourses.v
theories/ModelRules.v
theories/SpecRules.v
theories/ProofRules.v
theories/PropRules.v
theories/ModelRulesBasic.v
theories/SpecExec.v
theories/SpecRulesBasic.v
theories/ProofExec.v
theories/ProofRulesBasic.v
theories/PropRulesBasic.v
theories/ModelRulesConvention.v
theories/SpecRulesConvention.v
theories/ProofExecSeq.v
theories/ProofRulesConvention.v
theories/PropRulesConvention.v
theories/PropRulesEffect.v
theories/PropAdvice.v
theories/PropFlowGraph.v
theories/ModelRulesRedundant.v
theories/ModelRulesNullCheck.v
theories/SpecRulesRedundant.v
theories/SpecRulesNullCheck.v
theories/ProofRulesRedundant.v
theories/PropRulesRedundant.v
theories/ProofRulesNullCheck.v
theories/PropRulesNullCheck.v
theories/ModelRulesVars.v
theories/SpecRulesVars.v
theories/ProofRulesVars.v
theories/PropRulesVars.v
theories/ModelReporters.v
theories/SpecJSON.v
theories/ProofJSON.v
theories/SpecXML.v
theories/ProofXML.v
theories/SpecReporters.v
theories/ProofReporters.v
theories/PropReporters.v
theories/ModelRulesObjC.v
theories/SpecRulesObjC.v
theories/ProofRulesObjC.v
theories/PropRulesObjC.v
theories/ModelDocgen.v
theories/SpecDocgen.v
theories/ProofDocgen.v
theories/PropDocgen.v
theories/ModelRuleTable.v
theories/ModelVerbose.v
theories/SpecVerbose.v
theories/ProofVerbose.v
theories/PropVerbose.v
theories/ModelProgram.v
theories/SpecProgram.v
theories/ProofProgram.v
theories/PropRuleTable.v
theories/PropProgram.v
theories/SpecCatalogue.v
theories/PropCatalogue.v
theories/SpecSettings.v
theories/PropSettings.v
theories/SpecLanguages.v
theories/PropLanguages.v
theories/SpecSuppression.v
theories/PropSuppression.v
theories/ModelConfigFile.v
theories/SpecConfigFile.v
theories/ProofConfigFile.v
theories/PropConfigFile.v
theories/PropProject.v
theories/SpecMessages.v
theories/ProofMessages.v
theories/PropMessages.v
theories/SpecDefined.v
theories/ProofDefined.v
theories/PropDefined.v
theories/ModelApple.v
theories/SpecApple.v
theories/PropApple.v
theories/SpecSuppressRuns.v
theories/PropSuppressRuns.v
theories/ModelSortTable.v
theories/SpecSortTable.v
theories/PropSortTable.v
theories/ModelScaffold.v
theories/SpecScaffold.v
theories/PropScaffold.v
theories/PropReport.v
theories/ModelInstall.v
theories/SpecInstall.v
theories/PropInstall.v
theories/ModelBundle.v
theories/SpecBundle.v
theories/PropBundle.v
theories/ModelBuild.v
theories/SpecBuild.v
theories/PropBuild.v
theories/ModelScripts.v
theories/SpecScripts.v
theories/PropScripts.v
theories/ModelClang.v
theories/SpecClang.v
theories/ProofClang.v
theories/ProofClangRun.v
theories/PropClang.v
theories/ConformanceBase.v
theories/ConformanceMetrics.v
theories/ConformanceCore.v
theories/ConformanceResults.v
theories/ConformanceRulesAbstract.v
theories/ConformanceRulesBasic.v
theories/ConformanceRulesCocoa.v
theories/ConformanceRulesConvention.v
theories/ConformanceRulesCuda.v
theories/ConformanceRulesDesign.v
theories/ConformanceRulesEmpty.v
theories/ConformanceRulesHelper.v
theories/ConformanceRulesMigration.v
theories/ConformanceRulesNaming.v
theories/ConformanceRulesRedundant.v
theories/ConformanceRulesSize.v
theories/ConformanceRulesUnused.v
theories/ModelCMake.v
theories/ModelCMakeTexts.v
theories/ModelCMakeConfig.v
theories/SpecCMake.v
theories/ProofCMake.v
theories/ProofCMakeConfig.v
theories/SpecCMakeConfig.v
theories/PropCMakeConfig.v
theories/ProofCMakeRules.v
theories/ProofCMakeRoot.v
theories/PropCMake.v
theories/ProofCMakeTests.v
theories/PropCMakeTests.v
theories/PropCMakeCases.v
theories/SpecCMakeReporters.v
theories/ProofCMakeReporters.v
theories/PropCMakeReporters.v
theories/SpecCMakeModules.v
theories/ProofCMakeModules.v
theories/PropCMakeModules.v
theories/SpecRelease.v
theories/PropRelease.v
theories/PropReleaseRuns.v
