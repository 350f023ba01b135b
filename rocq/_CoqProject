-Q theories Verif
theories/Lib_Sum.v
theories/Lib_Pow.v
theories/M_Base.v
theories/M_AdstockHill.v
theories/S_Adstock.v
theories/P_Adstock.v
theories/M_Equations.v
theories/S_Media.v
theories/P_Media.v
theories/P_MediaProps.v
theories/C_Adstock.v
theories/M_Transformers.v
theories/S_Transformers.v
theories/P_Transformers.v
theories/C_Transformers.v
theories/M_Priors.v
theories/S_Priors.v
theories/P_Priors.v
theories/C_Priors.v
theories/M_Spec.v
theories/S_Spec.v
theories/P_Spec.v
theories/C_Spec.v
theories/Lib_Dict.v
theories/M_PriorDist.v
theories/S_PriorDist.v
theories/P_PriorDist.v
theories/C_PriorDist.v
theories/M_Sampler.v
theories/S_Sampler.v
theories/P_Sampler.v
theories/C_Sampler.v
theories/M_Knots.v
theories/S_Knots.v
theories/P_Knots.v
theories/C_Knots.v
theories/M_AKS.v
theories/S_AKS.v
theories/P_AKS.v
theories/C_AKS.v
theories/M_Band.v
theories/S_Band.v
theories/P_Band.v
theories/P_Ridge.v
theories/C_Band.v
theories/M_Time.v
theories/S_Time.v
theories/P_Time.v
theories/P_Period.v
theories/C_Time.v
theories/Lib_QSum.v
theories/M_Opt.v
theories/S_Opt.v
theories/P_Opt.v
theories/P_OptSearch.v
theories/P_OptConcave.v
theories/P_OptGrid.v
theories/C_Opt.v
theories/M_Budget.v
theories/S_Budget.v
theories/P_Budget.v
theories/P_BudgetRF.v
theories/P_Stabilize.v
theories/C_Budget.v
theories/M_Aggregate.v
theories/S_Aggregate.v
theories/P_Aggregate.v
theories/M_Analyzer.v
theories/S_Analyzer.v
theories/P_Analyzer.v
theories/P_AnalyzerIO.v
theories/C_Analyzer.v
theories/S_Predictor.v
theories/P_Predictor.v
theories/C_Predictor.v
theories/S_Paid.v
theories/P_Paid.v
theories/P_PaidMono.v
theories/C_Paid.v
theories/M_Stats.v
theories/S_Stats.v
theories/P_Stats.v
theories/C_Stats.v
theories/M_Summary.v
theories/S_Roi.v
theories/P_Roi.v
theories/C_Roi.v
theories/S_Summary.v
theories/P_Summary.v
theories/P_Contribution.v
theories/P_Labels.v
theories/C_Summary.v
theories/M_Curves.v
theories/S_Curves.v
theories/P_Curves.v
theories/P_Frequency.v
theories/C_Curves.v
theories/M_ArgBuilder.v
theories/C_ArgBuilder.v
theories/M_Rng.v
theories/C_Rng.v
theories/M_TensorProto.v
theories/C_TensorProto.v
theories/Lib_Sort.v
theories/M_Builder.v
theories/S_Builder.v
theories/P_Builder.v
theories/P_BuilderOrder.v
theories/C_Builder.v
theories/M_Tensors.v
theories/S_Tensors.v
theories/P_Tensors.v
theories/C_Tensors.v
theories/M_Weekly.v
theories/S_Weekly.v
theories/P_Weekly.v
theories/P_WeeklyGrid.v
theories/P_WeeklyMult.v
theories/C_Weekly.v
theories/M_Accuracy.v
theories/S_Accuracy.v
theories/P_Accuracy.v
theories/P_AccuracyIO.v
theories/C_Accuracy.v
theories/M_Spend.v
theories/S_Spend.v
theories/P_Spend.v
theories/C_Spend.v
theories/M_Review.v
theories/S_Review.v
theories/P_Review.v
theories/P_ReviewScore.v
theories/P_ReviewModel.v
theories/P_ReviewChannels.v
theories/P_ReviewExtra.v
theories/C_Review.v
theories/C_ReviewChecks.v
theories/M_Hyper.v
theories/S_Hyper.v
theories/P_Hyper.v
theories/C_Hyper.v
theories/M_DistSerde.v
theories/S_DistSerde.v
theories/P_DistSerde.v
theories/C_DistSerde.v
theories/M_InputData.v
theories/S_InputData.v
theories/P_InputData.v
theories/C_InputData.v
theories/M_Marketing.v
theories/S_Marketing.v
theories/P_Marketing.v
theories/P_Marketing2.v
theories/P_Marketing3.v
theories/P_Marketing4.v
theories/C_Marketing.v
theories/M_ModelSerde.v
theories/S_ModelSerde.v
theories/P_ModelSerde.v
theories/C_ModelSerde.v
theories/M_SaveFile.v
theories/S_SaveFile.v
theories/P_SaveFile.v
theories/C_SaveFile.v
theories/M_Optimizer.v
theories/S_Optimizer.v
theories/P_Optimizer.v
theories/C_Optimizer.v
theories/M_Joint.v
theories/S_Joint.v
theories/P_Joint.v
theories/C_Joint.v
theories/M_PriorDraws.v
theories/S_PriorDraws.v
theories/P_PriorDraws.v
theories/C_PriorDraws.v
theories/M_Frame.v
theories/S_Frame.v
theories/P_Frame.v
theories/P_Frame2.v
theories/P_BuilderFull.v
theories/P_Frame3.v
theories/P_Frame4.v
theories/P_Frame5.v
theories/C_Frame.v
theories/M_Guard.v
theories/S_Guard.v
theories/P_Guard.v
theories/C_Guard.v
theories/M_Eda.v
theories/S_Eda.v
theories/P_Eda.v
theories/C_Eda.v
theories/M_PriorBroadcast.v
theories/S_PriorBroadcast.v
theories/P_PriorBroadcast.v
theories/C_PriorBroadcast.v
theories/M_Independent.v
theories/S_Independent.v
theories/P_Independent.v
theories/C_Independent.v
theories/M_DistEqual.v
theories/S_DistEqual.v
theories/P_DistEqual.v
theories/C_DistEqual.v
theories/M_Report.v
theories/S_Report.v
theories/P_Report.v
theories/C_Report.v
theories/M_DataChecks.v
theories/S_DataChecks.v
theories/P_DataChecks.v
theories/C_DataChecks.v
theories/M_National.v
theories/S_National.v
theories/P_National.v
theories/C_National.v
theories/M_CurveTables.v
theories/S_CurveTables.v
theories/P_CurveTables.v
theories/P_CurveTables2.v
theories/P_CurveTables3.v
theories/C_CurveTables.v
theories/M_ChannelMaps.v
theories/S_ChannelMaps.v
theories/P_ChannelMaps.v
theories/C_ChannelMaps.v
theories/M_Labelled.v
theories/S_Labelled.v
theories/P_Labelled.v
theories/C_Labelled.v
theories/M_FitTable.v
theories/S_FitTable.v
theories/P_FitTable.v
theories/C_FitTable.v
theories/M_Thinning.v
theories/S_Thinning.v
theories/P_Thinning.v
theories/C_Thinning.v
theories/M_Restore.v
theories/S_Restore.v
theories/P_Restore.v
theories/P_Health.v
theories/C_Restore.v
theories/M_NdBuilder.v
theories/S_NdBuilder.v
theories/P_NdBuilder.v
theories/C_NdBuilder.v
theories/M_MediaSummary.v
theories/S_MediaSummary.v
theories/P_MediaSummary.v
theories/P_MediaCalls.v
theories/P_MediaTables.v
theories/C_MediaSummary.v
theories/M_WeeklyCreate.v
theories/S_WeeklyCreate.v
theories/P_WeeklyCreate.v
theories/C_WeeklyCreate.v
theories/M_Planner.v
theories/S_Planner.v
theories/P_Planner.v
theories/P_Planner2.v
theories/C_Planner.v
theories/M_BudgetSpec.v
theories/S_BudgetSpec.v
theories/P_BudgetSpec.v
theories/P_BudgetSpec2.v
theories/P_BudgetSpec3.v
theories/C_BudgetSpec.v
theories/M_Format.v
theories/S_Format.v
theories/P_Format.v
theories/P_Format2.v
theories/P_Format3.v
theories/C_Format.v
theories/M_MarketingSpec.v
theories/S_MarketingSpec.v
theories/P_MarketingSpec.v
theories/P_MarketingSpec2.v
theories/P_MarketingSpec3.v
theories/P_MarketingSpec4.v
theories/C_MarketingSpec.v
theories/P_MediaUpdate.v
theories/C_MediaUpdate.v
theories/M_RfSpec.v
theories/S_RfSpec.v
theories/P_RfSpec.v
theories/P_RfSpec2.v
theories/P_RfSpec3.v
theories/C_RfSpec.v
theories/M_FitSpec.v
theories/S_FitSpec.v
theories/P_FitSpec.v
theories/C_FitSpec.v
theories/M_UiSpecs.v
theories/S_UiSpecs.v
theories/P_UiSpecs.v
theories/P_UiSpecs2.v
theories/P_UiSpecs3.v
theories/P_UiSpecs4.v
theories/C_UiSpecs.v
theories/M_XrLoader.v
theories/S_XrLoader.v
theories/P_XrLoader.v
theories/P_XrLoader2.v
theories/P_XrLoader3.v
theories/C_XrLoader.v
theories/M_FitChart.v
theories/S_FitChart.v
theories/P_FitChart.v
theories/P_FitChart2.v
theories/C_FitChart.v
theories/M_Sheets.v
theories/S_Sheets.v
theories/P_Sheets.v
theories/C_Sheets.v
theories/M_CurveCharts.v
theories/S_CurveCharts.v
theories/P_CurveCharts.v
theories/C_CurveCharts.v
theories/M_Summarizer.v
theories/S_Summarizer.v
theories/P_Summarizer.v
theories/C_Summarizer.v
theories/M_HealthCard.v
theories/S_HealthCard.v
theories/P_HealthCard.v
theories/C_HealthCard.v
theories/M_TableNames.v
theories/S_TableNames.v
theories/P_TableNames.v
theories/C_TableNames.v
