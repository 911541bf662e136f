-Q theories Verif
theories/Base.v
theories/Num.v
theories/Json.v
theories/Logger.v
theories/World.v
theories/Vesicle.v
theories/MeltVisc.v
theories/RelVisc.v
theories/Bubbles.v
theories/Terrain.v
theories/Lava.v
theories/Thermal.v
theories/Flux.v
theories/Integrator.v
theories/Factory.v
theories/Run.v
theories/RNum.v
theories/Spec.v
theories/LoggerProofs.v
theories/Props_Logger.v
theories/Frame.v
theories/StepLog.v
theories/StepProofs.v
theories/RowProofs.v
theories/StepProps.v
theories/ColumnProofs.v
theories/Props_Step.v
theories/StepRow.v
theories/Props_Run.v
theories/Props_Velocity.v
theories/RPow.v
theories/Erf.v
theories/Props_Rheology.v
theories/Props_Material.v
theories/Props_Terrain.v
theories/Props_Thermal.v
theories/Gives.v
theories/Props_Flux.v
theories/Steady.v
theories/Props_Budget.v
theories/Props_BudgetStep.v
theories/Props_Factory.v
theories/Props_RunFile.v
theories/EffArray.v
theories/Props_EffArray.v
theories/Props_RunOuts.v
theories/Props_RunOutsFile.v
theories/Safe.v
theories/Valid.v
theories/Props_ValidRun.v
theories/Cooling.v
theories/Props_Cooling.v
theories/Props_Template.v
theories/Props_Template2.v
theories/Props_Venus.v
theories/FNum.v
theories/FFacts.v
theories/Props_Float.v
theories/Props_FloatNan.v
theories/Props_FloatDemo.v
theories/Props_Melts.v
theories/Props_TemplateMelts.v
theories/JsonText.v
theories/EditJson.v
theories/JsonFacts.v
theories/JsonRead.v
theories/Props_EditJson.v
theories/Props_EditNew.v
theories/Props_EditDemo.v
theories/Props_Params.v
theories/Props_Unused.v
theories/Props_ParamsDemo.v
theories/Plot.v
theories/Props_Prefix.v
theories/Props_PrefixDemo.v
theories/Props_Plot.v
theories/Props_PlotDemo.v
theories/CsvText.v
theories/CsvProofs.v
theories/Props_CsvText.v
theories/Gui.v
theories/Props_Gui.v
theories/Props_GuiFloat.v
theories/Timeless.v
theories/Props_Time.v
theories/Props_TimeDemo.v
theories/LogIndep.v
theories/Props_LogIndep.v
theories/Props_LogIndepDemo.v
theories/TableTrace.v
theories/Props_Table.v
theories/Props_TableDemo.v
theories/Props_Energy.v
theories/Props_EnergyDemo.v
theories/WidthScale.v
theories/Props_Width.v
theories/Props_WidthDemo.v
theories/Props_RelFormula.v
theories/Recompute.v
theories/Props_Recompute.v
theories/Props_RecomputeDemo.v
theories/Resume.v
theories/Props_Resume.v
theories/Props_ResumeDemo.v
theories/FloatErr.v
theories/Props_FloatLaws.v
theories/Props_FloatLawsDemo.v
theories/Props_PlotProfile.v
theories/SoftLibm.v
theories/Refine.v
theories/Props_Refine.v
theories/Lipschitz.v
theories/ModelLip.v
theories/Losses.v
theories/Props_RefineRun.v
theories/Props_RefineDemo.v
theories/Props_Compare.v
theories/Props_Weaker.v
theories/Props_WeakerDemo.v
theories/Crash.v
theories/CrashProofs.v
theories/Props_Crash.v
theories/Props_CrashDemo.v
theories/Props_FactoryErr.v
theories/Props_EditMany.v
theories/JsonGrammar.v
theories/Props_Grammar.v
theories/Props_GrammarDemo.v
theories/JsonDump.v
theories/Props_Dump.v
theories/Props_DumpDemo.v
theories/Props_DumpText.v
theories/Props_EditTwice.v
theories/Props_EditSettle.v
theories/Props_DumpTextDemo.v
theories/Props_ThermalMore.v
theories/Causal.v
theories/Props_Causal.v
theories/Props_CausalFile.v
theories/Props_CausalDemo.v
theories/Props_Far.v
theories/Props_FarDemo.v
theories/Faster.v
theories/Props_Faster.v
theories/Props_FasterDemo.v
theories/Props_Files.v
theories/Props_Finer.v
theories/Props_FinerDemo.v
theories/Props_Easier.v
theories/Props_EasierDemo.v
theories/Props_Fewer.v
theories/Props_FewerDemo.v
theories/Props_Close.v
theories/Props_CloseDemo.v
theories/Props_CloseLosses.v
theories/Props_CloseFlow.v
theories/Props_CloseLossesDemo.v
theories/Props_CloseVent.v
theories/Props_CloseVentDemo.v
