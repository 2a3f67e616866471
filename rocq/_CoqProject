-Q theories Verif
theories/Prelude.v
theories/PreludeFacts.v
theories/SpecBase.v
theories/SpecBaseFacts.v
theories/Sampling_Model.v
theories/Sampling_Spec.v
theories/Sampling_Proofs.v
theories/Sampling_Properties.v
theories/Base_Model.v
theories/Base_Spec.v
theories/Base_Proofs.v
theories/Base_Properties.v
theories/Base_Properties2.v
theories/Multi_Model.v
theories/Multi_Spec.v
theories/Multi_Proofs.v
theories/Multi_Properties.v
theories/Time_Model.v
theories/Time_Spec.v
theories/Time_Proofs.v
theories/Time_Properties.v
theories/Sparse_Model.v
theories/Sparse_Spec.v
theories/Sparse_Proofs.v
theories/Sparse_Properties.v
theories/Parse_Model.v
theories/Parse_Spec.v
theories/Parse_Proofs.v
theories/Parse_DurProofs.v
theories/Parse_TpmProofs.v
theories/Parse_SemiProofs.v
theories/Parse_GroupProofs.v
theories/Parse_Properties.v
theories/Activity_Model.v
theories/Activity_Spec.v
theories/Activity_Proofs.v
theories/Activity_SemiProofs.v
theories/Activity_LabelProofs.v
theories/Activity_HouseProofs.v
theories/Activity_Properties.v
theories/Appliance_Model.v
theories/Appliance_Spec.v
theories/Matrix_Proofs.v
theories/Appliance_Proofs.v
theories/Appliance_RunProofs.v
theories/Appliance_TypeProofs.v
theories/Appliance_Properties.v
theories/Appliance_ReadSpec.v
theories/Appliance_ReadProofs.v
theories/Appliance_Properties2.v
theories/AppSetup_Model.v
theories/AppSetup_Spec.v
theories/AppSetup_Proofs.v
theories/AppSetup_InitProofs.v
theories/AppSetup_Properties.v
theories/ActApp_Model.v
theories/ActApp_Spec.v
theories/ActApp_Proofs.v
theories/ActApp_RunProofs.v
theories/ActApp_Properties.v
theories/ProbApp_Model.v
theories/ProbApp_Spec.v
theories/ProbApp_Proofs.v
theories/ProbApp_StepProofs.v
theories/ProbApp_RunProofs.v
theories/ProbApp_ProbProofs.v
theories/ProbApp_MoreProofs.v
theories/ProbApp_Properties.v
theories/Light_Model.v
theories/Light_Spec.v
theories/Light_Proofs.v
theories/Light_Properties.v
theories/Car_Model.v
theories/Car_Spec.v
theories/Car_Proofs.v
theories/Car_Properties.v
theories/Heat_Model.v
theories/Heat_Spec.v
theories/Heat_Proofs.v
theories/Heat_Properties.v
theories/Heat_Properties2.v
theories/Setpoint_Model.v
theories/Setpoint_Spec.v
theories/Setpoint_Proofs.v
theories/Setpoint_Properties.v
theories/LoadMetric_Model.v
theories/LoadMetric_Spec.v
theories/LoadMetric_Proofs.v
theories/LoadMetric_Properties.v
theories/StateMetric_Model.v
theories/StateMetric_Spec.v
theories/StateMetric_DurProofs.v
theories/StateMetric_Proofs.v
theories/StateMetric_Properties.v
theories/Levenshtein_Model.v
theories/Levenshtein_Spec.v
theories/Levenshtein_Proofs.v
theories/Levenshtein_Properties.v
theories/Subgroup_Model.v
theories/Subgroup_Spec.v
theories/Subgroup_Proofs.v
theories/Subgroup_NameProofs.v
theories/Subgroup_Properties.v
theories/Loader_Model.v
theories/Loader_Spec.v
theories/Loader_Proofs.v
theories/Loader_FileProofs.v
theories/Loader_Properties.v
theories/Weather_Model.v
theories/Weather_Spec.v
theories/Weather_Proofs.v
theories/Weather_RealProofs.v
theories/Sun_Model.v
theories/Sun_Spec.v
theories/Sun_Proofs.v
theories/DayTemp_Model.v
theories/DayTemp_Spec.v
theories/DayTemp_Proofs.v
theories/Weather_Properties.v
theories/Sun_Properties.v
theories/DayTemp_Properties.v
theories/LoadSim_Model.v
theories/LoadSim_Spec.v
theories/LoadSim_Proofs.v
theories/LoadSim_Properties.v
theories/GTou_Model.v
theories/GTou_Spec.v
theories/GTou_Proofs.v
theories/GTou_LabelProofs.v
theories/GTou_OccProofs.v
theories/GTou_HouseProofs.v
theories/GTou_SparseProofs.v
theories/GTou_SparseTpmProofs.v
theories/GTou_StatProofs.v
theories/GTou_StartProofs.v
theories/GTou_DataProofs.v
theories/GTou_Properties.v
theories/GMask_Model.v
theories/GMask_Spec.v
theories/GMask_Proofs.v
theories/GMask_MainProofs.v
theories/GMask_ListProofs.v
theories/GMask_Properties.v
theories/Switch_Model.v
theories/Switch_Spec.v
theories/Switch_IndSpec.v
theories/Switch_ObsSpec.v
theories/Switch_Proofs.v
theories/Switch_CrestProofs.v
theories/Switch_IndProofs.v
theories/Switch_MidnightProofs.v
theories/Switch_RunProofs.v
theories/Switch_Properties.v
theories/OwnDict_Spec.v
theories/OwnDict_Proofs.v
theories/Destatis_Model.v
theories/Destatis_Spec.v
theories/Destatis_ColumnProofs.v
theories/Destatis_Proofs.v
theories/Destatis_Properties.v
theories/Trace_Model.v
theories/Trace_Spec.v
theories/Trace_Proofs.v
theories/Trace_DictProofs.v
theories/Trace_Properties.v
theories/Crest_Model.v
theories/Crest_Spec.v
theories/Crest_TpmProofs.v
theories/Crest_OwnProofs.v
theories/Crest_Proofs.v
theories/Crest_Properties.v
theories/Sheet_Model.v
theories/Sheet_Spec.v
theories/Sheet_Proofs.v
theories/Sheet_Properties.v
theories/Store_Model.v
theories/Store_Spec.v
theories/Store_Proofs.v
theories/Store_CacheProofs.v
theories/Store_Properties.v
theories/Sky_Model.v
theories/Law_Spec.v
theories/Law_Base.v
theories/Law_ChainProofs.v
theories/Law_SparseProofs.v
theories/Law_CountProofs.v
theories/Law_SemiProofs.v
theories/Law_SkyProofs.v
theories/Law_Properties.v
theories/Fit_Model.v
theories/Fit_Spec.v
theories/Fit_Proofs.v
theories/Fit_FiveProofs.v
theories/Fit_LawProofs.v
theories/Fit_Properties.v
theories/Daily_Model.v
theories/Daily_Spec.v
theories/Daily_Proofs.v
theories/Daily_RunProofs.v
theories/Daily_Properties.v
theories/Atus_Model.v
theories/Atus_Spec.v
theories/Atus_Proofs.v
theories/Atus_StateProofs.v
theories/Atus_MaskProofs.v
theories/Atus_BlockProofs.v
theories/Atus_RowProofs.v
theories/Atus_TimedProofs.v
theories/Atus_LawProofs.v
theories/Atus_Properties.v
theories/Dist_Model.v
theories/Dist_Spec.v
theories/Dist_Proofs.v
theories/Dist_Properties.v
theories/Groups_Model.v
theories/Groups_Spec.v
theories/Groups_Proofs.v
theories/Groups_Properties.v
theories/LightLaw_Spec.v
theories/LightLaw_Proofs.v
theories/LightLaw_Properties.v
theories/Use_Model.v
theories/Use_Spec.v
theories/Use_Proofs.v
theories/Use_Properties.v
theories/Toy_Model.v
theories/Toy_Spec.v
theories/Toy_Proofs.v
theories/Toy_Properties.v
theories/Folder_Model.v
theories/Folder_Spec.v
theories/Folder_Proofs.v
theories/Folder_ZipProofs.v
theories/Folder_GtouProofs.v
theories/Folder_Properties.v
theories/Folder_Properties2.v
theories/Lamp_Model.v
theories/Lamp_Spec.v
theories/Lamp_Proofs.v
theories/Lamp_Properties.v
theories/Boiler_Model.v
theories/Boiler_Spec.v
theories/Boiler_Proofs.v
theories/Boiler_Properties.v
theories/Wash_Model.v
theories/Wash_Spec.v
theories/Wash_Proofs.v
theories/Wash_Properties.v
theories/Help_Model.v
theories/Help_Spec.v
theories/Help_Proofs.v
theories/Help_Properties.v
theories/Conf_Model.v
theories/Conf_Spec.v
theories/Conf_Proofs.v
theories/Conf_Properties.v
theories/Conf_Properties2.v
theories/Old_Model.v
theories/Old_Properties.v
theories/Pick_Model.v
theories/Pick_Properties.v
theories/Xls_Model.v
theories/Xls_Properties.v
