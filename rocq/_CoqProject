-Q theories Verif
theories/Base.v
theories/F64.v
theories/MD5.v
theories/Num.v
theories/Frame.v
theories/Design_Model.v
theories/Design_Spec.v
theories/Design_Proofs.v
theories/Design_Yaml_Proofs.v
theories/Design_Text_Proofs.v
theories/Design_Props.v
theories/Periods_Model.v
theories/Periods_Proofs.v
theories/Periods_Props.v
theories/Enumerate_Model.v
theories/Enumerate_Spec.v
theories/Enumerate_Props.v
theories/ListLib.v
theories/Rows_Model.v
theories/Rows_Spec.v
theories/Rows_Proofs.v
theories/Rows_Props.v
theories/Checks_Model.v
theories/Checks_Spec.v
theories/Checks_Proofs.v
theories/Checks_Props.v
theories/Checks_Props2.v
theories/Pivot_Model.v
theories/Pivot_Spec.v
theories/Pivot_Proofs.v
theories/Pivot_Props.v
theories/Pivot_Props2.v
theories/Standard_Model.v
theories/Standard_Props.v
theories/Rank.v
theories/NumOrd.v
theories/Assign_Model.v
theories/Assign_Spec.v
theories/Assign_Proofs.v
theories/Assign_Props.v
theories/Pipeline_Model.v
theories/Pipeline_Spec.v
theories/Pipeline_Proofs.v
theories/Pipeline_Props.v
theories/Experiment_Props.v
theories/Trimmed_Model.v
theories/Trimmed_Spec.v
theories/Moments.v
theories/Trimmed_Proofs.v
theories/Trimmed_Real.v
theories/Trimmed_Props.v
theories/Cuped_Model.v
theories/Cuped_Props.v
theories/Stats_Model.v
theories/Stats_Num.v
theories/Stats_Props.v
theories/Tests_Proofs.v
theories/Tests_Props.v
theories/Tests_Props2.v
theories/Fieller_Props.v
theories/Ratio_Props.v
theories/Synth_Model.v
theories/Synth_Props.v
theories/Analysis_Model.v
theories/Analysis_Spec.v
theories/Analysis_Props.v
theories/Effect_Props.v
theories/Analysis_Props2.v
theories/Simulation_Model.v
theories/Sim_Names_Props.v
theories/Sim_Boot_Props.v
theories/Sim_State_Props.v
theories/Sim_Stats_Props.v
theories/Sim_Estimate_Props.v
theories/Sim_Variance_Props.v
theories/Display_Model.v
theories/Display_Spec.v
theories/Display_Proofs.v
theories/Display_Props.v
theories/Curves_Model.v
theories/Curves_Props.v
theories/Bars_Model.v
theories/Bars_Props.v
theories/Cupedplot_Model.v
theories/Cupedplot_Props.v
theories/Summary_Model.v
theories/Summary_Props.v
theories/Overtime_Model.v
theories/Overtime_Props.v
theories/History_Model.v
theories/History_Props.v
theories/Journey_Model.v
theories/Journey_Proofs.v
theories/Journey_Props.v
theories/Warning_Props.v
theories/Sim_Effect_Props.v
theories/Table_Model.v
theories/Table_Spec.v
theories/Table_Proofs.v
theories/Table_Props.v
theories/Designer_Model.v
theories/Designer_Spec.v
theories/Designer_Proofs.v
theories/Designer_Props.v
theories/Entry_Model.v
theories/Entry_Spec.v
theories/Entry_Proofs.v
theories/Entry_Props.v
theories/Entry_Props2.v
theories/Regular_Props.v
theories/Regular_Props2.v
theories/Text_Model.v
theories/Text_Spec.v
theories/Text_Proofs.v
theories/Text_Props.v
theories/Text_Props2.v
theories/Text_Props3.v
theories/Size_Props.v
theories/Totals_Props.v
theories/Totals_Props2.v
theories/Totals_Props3.v
theories/Deepdive_Model.v
theories/Deepdive_Props.v
theories/Deepdive_Props2.v
theories/Analyzer_Model.v
theories/Analyzer_Props.v
theories/Analyzer_Props2.v
theories/Analyzer_Props3.v
theories/Conform_Data.v
theories/Conform_Stats.v
theories/Conform_Analysis.v
theories/Robust_Proofs.v
theories/Robust_Props.v
theories/Robust_Props2.v
theories/Power_Props.v
theories/Cuped_Props2.v
theories/Regular_Props3.v
theories/Overtime_Grid.v
theories/Analyzer_Props4.v
theories/Gaps_Props.v
theories/Inversion_Props.v
theories/Adjust_Props.v
theories/Gaps_Props2.v
theories/Denominator_Props.v
theories/Ratios_Props.v
theories/Ratios_Props2.v
theories/Zeros_Props.v
theories/Random_Proofs.v
theories/Random_Props.v
theories/Gaps_Props3.v
theories/Random_Props2.v
theories/Random_Props3.v
theories/Random_Props4.v
theories/Sums_Model.v
theories/Sums_Props.v
theories/Sums_Props2.v
theories/Eleven_Props.v
theories/Gaps_Props4.v
theories/Gaps_Props5.v
theories/Vars_Model.v
theories/Vars_Props.v
theories/Covs_Model.v
theories/Covs_Props.v
theories/Stderr_Model.v
theories/Stderr_Props.v
theories/Statistic_Model.v
theories/Statistic_Props.v
