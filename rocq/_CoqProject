-Q theories Verif
theories/AD14_Props.v
theories/AELook_Model.v
theories/AELook_Props.v
theories/AEPC_Interp.v
theories/AEPC_Model.v
theories/AEPC_Proofs.v
theories/AEPC_Props.v
theories/BModes_Model.v
theories/BModes_Props.v
theories/Bladed_Model.v
theories/Bladed_Proofs.v
theories/Bladed_Props.v
theories/Bytes.v
theories/CSVRound_Props.v
theories/CSV_Model.v
theories/CSV_Props.v
theories/CactusElem_Props.v
theories/CactusTime_Props.v
theories/Cactus_Model.v
theories/Cactus_Props.v
theories/DeckRead_Props.v
theories/Deck_Model.v
theories/Deck_Props.v
theories/Dict.v
theories/Excel_Model.v
theories/Excel_Props.v
theories/ExtPtfmMore_Props.v
theories/ExtPtfm_Model.v
theories/ExtPtfm_Props.v
theories/FASTAero_Model.v
theories/FASTAero_Props.v
theories/FASTAscii_Model.v
theories/FASTAscii_Props.v
theories/FASTCom_Model.v
theories/FASTCom_Props.v
theories/FASTFileEnd_Props.v
theories/FASTFileMore_Props.v
theories/FASTFile_Model.v
theories/FASTFile_Props.v
theories/FASTIn_File.v
theories/FASTIn_Model.v
theories/FASTIn_Proofs.v
theories/FASTIn_Props.v
theories/FASTOut_Cols.v
theories/FASTOut_Model.v
theories/FASTOut_Proofs.v
theories/FASTOut_Props.v
theories/FASTOut_Quant.v
theories/FASTOut_Round.v
theories/FASTPolar_Props.v
theories/FASTProto_Model.v
theories/FASTProto_Props.v
theories/FASTSpecMore_Props.v
theories/FASTSpec_Model.v
theories/FASTSpec_Props.v
theories/FASTTabRead_Props.v
theories/FASTTab_Model.v
theories/FASTTab_Proofs.v
theories/FASTTab_Props.v
theories/FS.v
theories/File_Model.v
theories/File_Proofs.v
theories/File_Props.v
theories/FlexBladeMore_Props.v
theories/FlexBlade_Model.v
theories/FlexBlade_Props.v
theories/FlexDocMore_Props.v
theories/FlexDoc_Model.v
theories/FlexDoc_Props.v
theories/Flex_Model.v
theories/Flex_Proofs.v
theories/Flex_Props.v
theories/Float.v
theories/Graph_Conn.v
theories/Graph_Divide.v
theories/Graph_Model.v
theories/Graph_Proofs.v
theories/Graph_Props.v
theories/Graph_Spec.v
theories/H2datBhawc_Props.v
theories/H2datNames_Props.v
theories/H2dat_Model.v
theories/H2dat_Props.v
theories/H2io_Model.v
theories/H2io_Proofs.v
theories/H2io_Props.v
theories/HS2More_Props.v
theories/HS2_Model.v
theories/HS2_Props.v
theories/HTCAdd_Model.v
theories/HTCAdd_Props.v
theories/HTCBody_Model.v
theories/HTCBody_Props.v
theories/HTCCmp_Model.v
theories/HTCCmp_Props.v
theories/HTCExt_Model.v
theories/HTCExt_Props.v
theories/HTCHome_Model.v
theories/HTCHome_Props.v
theories/HTCInp_Model.v
theories/HTCInp_Props.v
theories/HTCObj_Model.v
theories/HTCObj_Props.v
theories/HTCPath_Model.v
theories/HTCPath_Props.v
theories/HTCRun_Model.v
theories/HTCRun_Props.v
theories/HTCSet_Model.v
theories/HTCSet_Props.v
theories/HTCSim_Model.v
theories/HTCSim_Props.v
theories/HTC_Model.v
theories/HTC_Names.v
theories/HTC_Proofs.v
theories/HTC_Props.v
theories/HTC_Round.v
theories/HTC_Spec.v
theories/HTC_Stable.v
theories/LibFile_Model.v
theories/LibFile_Props.v
theories/Lin_Model.v
theories/Lin_Props.v
theories/ListFacts.v
theories/MannBox_Model.v
theories/MannBox_Proofs.v
theories/MannBox_Props.v
theories/NumLen.v
theories/PCH2_Model.v
theories/PCH2_Props.v
theories/Profile_Model.v
theories/Profile_Props.v
theories/Py.v
theories/PyFacts.v
theories/Raaw_Model.v
theories/Raaw_Props.v
theories/Registry_Model.v
theories/Registry_Proofs.v
theories/Registry_Props.v
theories/Registry_Spec.v
theories/Rosco_Model.v
theories/Rosco_Props.v
theories/SelfTest_Model.v
theories/SelfTest_Props.v
theories/StBeam_Props.v
theories/StUse_Props.v
theories/St_Model.v
theories/St_Props.v
theories/SubDynModes_Props.v
theories/SubDynRead_Props.v
theories/SubDyn_Model.v
theories/SubDyn_Props.v
theories/TS_Model.v
theories/TS_Props.v
theories/Tdms_Model.v
theories/Tdms_Props.v
theories/Tecplot_Model.v
theories/Tecplot_Proofs.v
theories/Tecplot_Props.v
theories/TextFacts.v
theories/ToGraphHydro_Props.v
theories/ToGraphMore_Props.v
theories/ToGraphOut_Props.v
theories/ToGraph_Model.v
theories/ToGraph_Props.v
theories/TurbSim_Model.v
theories/TurbSim_More.v
theories/TurbSim_Proofs.v
theories/TurbSim_Props.v
theories/TurbSim_Quant.v
theories/VTK_Cells.v
theories/VTK_File.v
theories/VTK_Model.v
theories/VTK_Offsets.v
theories/VTK_Props.v
theories/VTK_Round.v
theories/VTK_Spec.v
theories/VTK_Structured.v
theories/VTK_Translate.v
theories/WaveKin_Model.v
theories/WaveKin_Props.v
theories/WindBox_Examples.v
theories/WindBox_Model.v
theories/WindBox_Proofs.v
theories/WindBox_Props.v
theories/WindBox_Spec.v
theories/WindConv_Props.v
theories/WindCorr_Model.v
theories/WindCorr_Props.v
theories/WindStat_Props.v
theories/Wind_Model.v
theories/Wind_Props.v
theories/Writers_Model.v
theories/Writers_Props.v
theories/YAML_Model.v
theories/YAML_Props.v
