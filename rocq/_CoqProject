-Q theories Verif

theories/Common.v
theories/Common_Proofs.v
theories/Arr_Model.v
theories/Arr_Proofs.v
theories/PyStr_Model.v
theories/PyStr_Proofs.v
theories/FileName_Model.v
theories/FileName_Proofs.v
theories/FileName_Props.v
theories/FileStruct_Model.v
theories/FileStruct_Proofs.v
theories/FileStruct_Props.v
theories/JobBoss_Model.v
theories/JobBoss_Proofs.v
theories/JobBoss2_Proofs.v
theories/JobBoss_Props.v
theories/Results_Model.v
theories/Results_Proofs.v
theories/Results_Props.v
theories/Stats_Model.v
theories/Stats_Proofs.v
theories/Stats2_Proofs.v
theories/Stats_Props.v
theories/Pimc_Model.v
theories/Pimc_Spec.v
theories/Pimc_Proofs.v
theories/Pimc2_Proofs.v
theories/Pimc3_Proofs.v
theories/Pimc4_Proofs.v
theories/Pimc5_Proofs.v
theories/Pimc6_Proofs.v
theories/Pimc_Props.v
theories/ModelIO_Model.v
theories/ModelIO_Spec.v
theories/ModelIO_Proofs.v
theories/ModelIO2_Proofs.v
theories/ModelIO_Props.v
theories/ModelIO2_Props.v
theories/Point_Model.v
theories/Point_Spec.v
theories/Point_Proofs.v
theories/Point_Props.v
theories/Load_Model.v
theories/Load_Spec.v
theories/Load_Proofs.v
theories/Load_Props.v
theories/Import_Model.v
theories/Import_Proofs.v
theories/Import_Props.v
theories/Analysis_Model.v
theories/Analysis_Proofs.v
theories/SameModel_Model.v
theories/SameModel_Proofs.v
theories/Bcast_Proofs.v
theories/SameModel_Props.v
theories/SameModel2_Props.v
theories/Create_Model.v
theories/Create_Spec.v
theories/Create_Proofs.v
theories/Create2_Proofs.v
theories/Create3_Proofs.v
theories/Create4_Proofs.v
theories/Create_Props.v
theories/Create2_Props.v
theories/Json_Model.v
theories/Json_Spec.v
theories/Json_Proofs.v
theories/Json2_Proofs.v
theories/Json3_Proofs.v
theories/Json4_Proofs.v
theories/Json_Props.v
theories/Json2_Props.v
theories/FileSearch_Model.v
theories/FileSearch_Spec.v
theories/FileSearch_Proofs.v
theories/FileSearch_Props.v
theories/FileSearch2_Props.v
theories/Sequences_Model.v
theories/Sequences_Spec.v
theories/Expm_Proofs.v
theories/Sequences_Proofs.v
theories/Sequences2_Proofs.v
theories/Sequences_Props.v
theories/Sequences2_Props.v
theories/Exec_Model.v
theories/Exec_Spec.v
theories/Exec_Proofs.v
theories/Exec2_Proofs.v
theories/Exec3_Proofs.v
theories/Exec4_Proofs.v
theories/Exec_Props.v
theories/Exec2_Props.v
theories/FileStruct2_Props.v
theories/JobBoss2_Props.v
theories/Pimc2_Props.v
theories/Julia_Model.v
theories/Julia_Spec.v
theories/Json5_Proofs.v
theories/Json6_Proofs.v
theories/Julia_Proofs.v
theories/Julia2_Proofs.v
theories/Julia3_Proofs.v
theories/Julia_Props.v
theories/Julia2_Props.v
theories/ModelOp_Model.v
theories/ModelOp_Spec.v
theories/ModelOp_Proofs.v
theories/ModelOp_Props.v
theories/ModelOp2_Proofs.v
theories/ModelOp3_Proofs.v
theories/ModelOp4_Proofs.v
theories/ModelOp2_Props.v
theories/Analysis_Props.v
theories/Julia3_Props.v
theories/ModelOp3_Props.v
theories/Sync_Model.v
theories/Sync_Props.v
theories/Auto_Model.v
theories/Auto_Spec.v
theories/Auto_Proofs.v
theories/Auto_Proofs2.v
theories/Auto_Props.v
theories/Output_Model.v
theories/Output_Proofs.v
theories/Output_Props.v
theories/Zmat_Model.v
theories/Zmat_Spec.v
theories/Zmat_Proofs.v
theories/Zmat_Props.v
theories/Orbital_Model.v
theories/Orbital_Spec.v
theories/Orbital_Proofs.v
theories/Orbital2_Proofs.v
theories/Orbital_Props.v
theories/Output2_Props.v
theories/Singles_Model.v
theories/Singles_Props.v
theories/Deck_Model.v
theories/Deck_Props.v
theories/Plot_Spec.v
theories/Plot_Model.v
theories/Plot_Proofs.v
theories/Plot2_Proofs.v
theories/Plot3_Proofs.v
theories/Plot4_Proofs.v
theories/Plot_Props.v
theories/Plot2_Props.v
theories/Params_Model.v
theories/Params_Proofs.v
theories/Params_Props.v
theories/ModelH_Model.v
theories/ModelH_Props.v
theories/Submit_Model.v
theories/Submit_Spec.v
theories/Submit_Props.v
theories/Deck2_Props.v
theories/Submit2_Model.v
theories/Submit2_Spec.v
theories/Submit2_Props.v
theories/Setup_Model.v
theories/Setup_Spec.v
theories/Setup_Proofs.v
theories/Setup2_Proofs.v
theories/Setup_Props.v
theories/Plot5_Props.v
theories/Job_Model.v
theories/Job_Spec.v
theories/Job_Proofs.v
theories/Job2_Proofs.v
theories/Job3_Proofs.v
theories/Job4_Proofs.v
theories/Job5_Proofs.v
theories/Job_Props.v
theories/Grid_Model.v
theories/Grid_Spec.v
theories/Grid_Proofs.v
theories/Grid2_Proofs.v
theories/Grid_Props.v
theories/Survey_Model.v
theories/Survey_Spec.v
theories/Survey_Proofs.v
theories/Survey2_Proofs.v
theories/Survey_Props.v
theories/Table_Model.v
theories/Table_Proofs.v
theories/Table_Props.v
theories/Train_Model.v
theories/Train_Proofs.v
theories/Train_Props.v
theories/Rest_Model.v
theories/Rest_Props.v
theories/Chart_Model.v
theories/Chart_Proofs.v
theories/Chart_Props.v
theories/Random_Model.v
theories/Random_Props.v
theories/Gallery_Model.v
theories/Gallery_Proofs.v
theories/Gallery_Props.v
theories/Campaign_Model.v
theories/Campaign_Props.v
theories/Place_Model.v
theories/Place_Props.v
theories/Install_Model.v
theories/Install_Props.v
theories/Chain_Model.v
theories/Chain_Spec.v
theories/Chain_Proofs.v
theories/Chain_Props.v
theories/Chain2_Props.v
