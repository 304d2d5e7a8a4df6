-Q theories Verif
theories/Base.v
theories/NumPy.v
theories/P_Trig.v
theories/Spec.v
theories/Spec_Lists.v
theories/M_Utils.v
theories/P_Utils.v
theories/P_Utils2.v
theories/M_Survey.v
theories/P_Survey.v
theories/P_Utils3.v
theories/P_Survey2.v
theories/P_Survey3.v
theories/P_Survey4.v
theories/P_Tvd.v
theories/P_Survey5.v
theories/M_Error.v
theories/Spec_Error.v
theories/P_Error.v
theories/P_Error2.v
theories/M_Architecture.v
theories/Spec_Strings.v
theories/P_Strings.v
theories/P_Strings2.v
theories/M_Torque.v
theories/Spec_Torque.v
theories/P_Torque.v
theories/P_Torque2.v
theories/M_Fluid.v
theories/P_Fluid.v
theories/M_Clearance.v
theories/Spec_Clearance.v
theories/P_Clearance.v
theories/P_Clearance2.v
theories/P_Clearance3.v
theories/M_Mesh.v
theories/Spec_Mesh.v
theories/P_Mesh.v
theories/P_Mesh2.v
theories/P_Mesh3.v
theories/Properties_Utils.v
theories/Properties_Survey.v
theories/Properties_Error.v
theories/Properties_Strings.v
theories/Properties_Torque.v
theories/Properties_Clearance.v
theories/Properties_Mesh.v
theories/Spec_Connector.v
theories/M_Connector.v
theories/Spec_Connector2.v
theories/P_Connector.v
theories/P_Connector2.v
theories/P_Connector3.v
theories/P_Connector4.v
theories/P_Connector5.v
theories/P_Connector6.v
theories/P_Connector7.v
theories/P_Connector8.v
theories/Properties_Connector.v
theories/M_Connector2.v
theories/Spec_Connector3.v
theories/P_Connector9.v
theories/P_Connector10.v
theories/Properties_Connector2.v
theories/M_Edm.v
theories/Spec_Edm.v
theories/P_Edm.v
theories/M_Interpreter.v
theories/Spec_Interpreter.v
theories/P_Interpreter.v
theories/Properties_Exchange.v
theories/M_Text.v
theories/Spec_Text.v
theories/P_Text.v
theories/M_Wbp.v
theories/Spec_Wbp.v
theories/P_Wbp.v
theories/P_Wbp2.v
theories/P_Wbp3.v
theories/P_Wbp4.v
theories/P_Wbp5.v
theories/Properties_Wbp.v
theories/M_Weights.v
theories/Spec_Weights.v
theories/P_Weights.v
theories/P_Weights2.v
theories/P_Weights3.v
theories/P_Weights4.v
theories/P_Weights5.v
theories/P_Weights6.v
theories/P_Weights7.v
theories/P_Weights8.v
theories/P_Weights9.v
theories/P_Weights10.v
theories/P_Weights11.v
theories/P_Weights12.v
theories/P_Weights13.v
theories/P_Weights14.v
theories/P_Weights15.v
theories/Properties_Weights.v
theories/M_Rates.v
theories/Spec_Rates.v
theories/P_Rates.v
theories/P_Rates2.v
theories/P_Rates3.v
theories/P_Rates4.v
theories/P_Rates5.v
theories/Spec_RatesCases.v
theories/P_Rates6.v
theories/M_Header.v
theories/Spec_Header.v
theories/P_Header.v
theories/Properties_Rates.v
theories/M_Splice.v
theories/Spec_Splice.v
theories/P_Splice.v
theories/P_Splice2.v
theories/P_Splice3.v
theories/P_Splice4.v
theories/Properties_Splice.v
theories/M_Sections.v
theories/Spec_Sections.v
theories/P_Sections.v
theories/P_Sections2.v
theories/P_Sections3.v
theories/P_Sections4.v
theories/P_Sections5.v
theories/P_Sections6.v
theories/Spec_SectionsCases.v
theories/P_Sections7.v
theories/Properties_Sections.v
theories/M_MaxCurve.v
theories/Spec_MaxCurve.v
theories/P_MaxCurve.v
theories/Properties_MaxCurve.v
theories/M_Extend.v
theories/Spec_Extend.v
theories/P_Extend.v
theories/P_Extend2.v
theories/P_Extend3.v
theories/P_Extend4.v
theories/P_Extend5.v
theories/P_Extend6.v
theories/P_Extend7.v
theories/P_Extend8.v
theories/Properties_Extend.v
theories/M_Plan.v
theories/Spec_Plan.v
theories/P_Plan.v
theories/P_Points.v
theories/Properties_Plan.v
theories/M_Refine.v
theories/Spec_Refine.v
theories/P_Refine.v
theories/P_Refine2.v
theories/P_Refine3.v
theories/P_Refine4.v
theories/P_Refine5.v
theories/P_Refine6.v
theories/Properties_Refine.v
theories/M_Levels.v
theories/Spec_Levels.v
theories/P_Levels.v
theories/P_Levels2.v
theories/P_Levels3.v
theories/P_Levels4.v
theories/P_Levels5.v
theories/P_Levels6.v
theories/P_Levels7.v
theories/P_Levels8.v
theories/P_Levels9.v
theories/Properties_Levels.v
theories/M_Draw.v
theories/Spec_Draw.v
theories/P_Draw.v
theories/P_Draw2.v
theories/P_Draw3.v
theories/P_Draw4.v
theories/P_Draw5.v
theories/P_Draw6.v
theories/P_Draw7.v
theories/Properties_Draw.v
theories/Spec_Causal.v
theories/P_Causal.v
theories/P_Causal2.v
theories/P_Causal3.v
theories/P_Causal4.v
theories/Properties_Causal.v
theories/M_Bundle.v
theories/M_Models.v
theories/Spec_Models.v
theories/P_Models.v
theories/P_Models2.v
theories/P_Models3.v
theories/P_Models4.v
theories/Properties_Models.v
theories/Spec_Frames.v
theories/P_Frames.v
theories/P_Frames2.v
theories/P_Frames3.v
theories/Properties_Frames.v
theories/M_MeshRun.v
theories/Spec_MeshRun.v
theories/P_MeshRun.v
theories/P_MeshRun2.v
theories/Spec_MeshFactor.v
theories/P_MeshRun3.v
theories/Properties_MeshRun.v
theories/M_EdmWell.v
theories/Spec_EdmWell.v
theories/P_EdmWell.v
theories/P_EdmWell2.v
theories/P_EdmWell3.v
theories/P_EdmWell4.v
theories/P_EdmWell5.v
theories/P_EdmWell6.v
theories/Properties_EdmWell.v
theories/M_DmsText.v
theories/Spec_DmsText.v
theories/P_DmsText.v
theories/P_DmsText2.v
theories/P_DmsText3.v
theories/Properties_DmsText.v
theories/M_Export.v
theories/Spec_Export.v
theories/P_Export.v
theories/P_Export2.v
theories/Properties_Export.v
theories/M_Ingest.v
theories/M_Extract.v
theories/Spec_Ingest.v
theories/P_Ingest.v
theories/P_Ingest2.v
theories/P_Ingest3.v
theories/P_Ingest4.v
theories/P_Ingest5.v
theories/P_Ingest6.v
theories/P_Ingest7.v
theories/P_Ingest8.v
theories/Properties_Ingest.v
theories/M_Validate.v
theories/Spec_Validate.v
theories/P_Validate.v
theories/P_Validate2.v
theories/P_Validate3.v
theories/P_Validate4.v
theories/P_Validate5.v
theories/Properties_Validate.v
theories/M_Copsegrove.v
theories/Spec_Copsegrove.v
theories/P_Copsegrove.v
theories/P_Copsegrove2.v
theories/P_Copsegrove3.v
theories/P_Copsegrove4.v
theories/P_Copsegrove5.v
theories/Properties_Copsegrove.v
theories/M_TorqueStations.v
theories/Spec_TorqueStations.v
theories/P_TorqueStations.v
theories/P_TorqueStations2.v
theories/P_TorqueStations3.v
theories/P_TorqueStations4.v
theories/Properties_TorqueStations.v
theories/M_StandardSet.v
theories/Spec_StandardSet.v
theories/P_StandardSet.v
theories/Properties_StandardSet.v
theories/M_Scene.v
theories/Spec_Scene.v
theories/P_Scene.v
theories/Properties_Scene.v
theories/M_Target.v
theories/Spec_Target.v
theories/P_Target.v
theories/P_Target2.v
theories/Properties_Target.v
theories/M_Rewrite.v
theories/Spec_Rewrite.v
theories/P_Rewrite.v
theories/Properties_Rewrite.v
theories/Spec_Replan.v
theories/P_Replan.v
theories/P_Replan2.v
theories/Properties_Replan.v
theories/M_FormulaData.v
theories/M_Formulas.v
theories/Spec_Formulas.v
theories/P_Formulas.v
theories/P_Formulas2.v
theories/P_Formulas3.v
theories/M_FormulaModels.v
theories/P_FormulaModels.v
theories/Properties_Formulas.v
theories/Properties_FormulaModels.v
theories/P_FormulaNames.v
theories/M_Legacy.v
theories/Spec_Legacy.v
theories/P_Legacy.v
theories/Properties_Legacy.v
theories/Spec_Length.v
theories/P_Length.v
theories/Properties_Length.v
theories/Spec_Extract.v
theories/P_Extract.v
theories/P_Extract2.v
theories/Properties_Extract.v
theories/M_Approach.v
theories/Spec_Approach.v
theories/P_Approach.v
theories/P_Approach2.v
theories/Properties_Approach.v
theories/M_Solver.v
theories/Spec_Solver.v
theories/P_Solver.v
theories/Properties_Solver.v
theories/P_Powers.v
theories/Properties_Powers.v
theories/M_Round.v
theories/Spec_Round.v
theories/Spec_Binary.v
theories/P_Round.v
theories/P_Round2.v
theories/P_Round3.v
theories/Properties_Round.v
theories/Spec_Rescue.v
theories/P_Rescue.v
theories/Properties_Rescue.v
theories/Spec_Stability.v
theories/P_Stability.v
theories/Properties_Stability.v
theories/M_Node.v
theories/Spec_Node.v
theories/P_Node.v
theories/Properties_Node.v
theories/M_Visual.v
theories/Spec_Visual.v
theories/P_Visual.v
theories/P_Visual2.v
theories/Properties_Visual.v
theories/M_EdmNames.v
theories/Spec_EdmNames.v
theories/P_EdmNames.v
theories/Properties_EdmNames.v
theories/Spec_Missed.v
theories/P_Missed.v
theories/P_Missed2.v
theories/Properties_Missed.v
theories/Spec_Sampled.v
theories/P_Sampled.v
theories/P_Sampled2.v
theories/P_Sampled3.v
theories/P_Sampled4.v
theories/Properties_Sampled.v
theories/Spec_Opposite.v
theories/P_Opposite.v
theories/Properties_Opposite.v
theories/M_Plot.v
theories/Spec_Plot.v
theories/P_Plot.v
theories/Properties_Plot.v
theories/M_Owsg.v
theories/Spec_Owsg.v
theories/P_Owsg.v
theories/Properties_Owsg.v
theories/M_OwsgMeta.v
theories/Spec_OwsgMeta.v
theories/P_OwsgMeta.v
theories/Properties_OwsgMeta.v
