-Q theories Verif
theories/Base.v
theories/M_Data.v
theories/ListLib.v
theories/S_Data.v
theories/L_Data.v
theories/L_Data2.v
theories/L_Insert.v
theories/L_Feat.v
theories/L_Str.v
theories/L_Split.v
theories/L_Join.v
theories/M_Hist.v
theories/T_Data.v
theories/P_Data.v
theories/M_Pool.v
theories/L_Pool.v
theories/S_Pool.v
theories/T_Pool.v
theories/P_Pool.v
theories/M_Valid.v
theories/L_Valid.v
theories/T_Valid.v
theories/T_Valid2.v
theories/P_Valid.v
theories/P_Valid2.v
theories/P_Valid3.v
theories/L_Vec.v
theories/M_Point.v
theories/S_Point.v
theories/L_Point.v
theories/T_Point.v
theories/P_Point.v
theories/P_Metric.v
theories/Loop.v
theories/M_Kernel.v
theories/S_Kernel.v
theories/L_Kernel.v
theories/T_Kernel.v
theories/P_Kernel.v
theories/M_Perc.v
theories/L_Perc.v
theories/L_Perc2.v
theories/S_Perc.v
theories/P_Perc.v
theories/T_Valid3.v
theories/T_Metric.v
theories/T_Perc.v
theories/M_Dll.v
theories/S_Dll.v
theories/L_Dll.v
theories/T_Dll.v
theories/P_Dll.v
theories/M_Smo.v
theories/L_Smo.v
theories/S_Smo.v
theories/T_Smo.v
theories/P_Smo.v
theories/M_Str.v
theories/S_Str.v
theories/L_Str2.v
theories/L_Str3.v
theories/T_Str.v
theories/P_Str.v
theories/M_Load.v
theories/S_Load.v
theories/L_Load.v
theories/L_Load2.v
theories/L_Load3.v
theories/L_Load4.v
theories/L_Load5.v
theories/T_Load.v
theories/P_Load.v
theories/M_Knn.v
theories/S_Knn.v
theories/L_Knn.v
theories/T_Knn.v
theories/P_Knn.v
theories/M_Reg.v
theories/S_Reg.v
theories/T_Reg.v
theories/P_Reg.v
theories/M_Kmeans.v
theories/S_Kmeans.v
theories/T_Kmeans.v
theories/P_Kmeans.v
theories/M_Ens.v
theories/S_Ens.v
theories/T_Ens.v
theories/P_Ens.v
theories/M_Heap.v
theories/L_Heap.v
theories/M_Multi.v
theories/S_Multi.v
theories/T_Heap.v
theories/P_Heap.v
theories/T_Multi.v
theories/P_Multi.v
theories/M_Random.v
theories/S_Random.v
theories/T_Random.v
theories/P_Random.v
theories/M_Norm.v
theories/S_Norm.v
theories/T_Norm.v
theories/P_Norm.v
theories/M_Sampling.v
theories/S_Sampling.v
theories/T_Sampling.v
theories/P_Sampling.v
theories/T_Kmeans2.v
theories/P_Kmeans2.v
theories/M_Stat.v
theories/S_Stat.v
theories/T_Stat.v
theories/P_Stat.v
theories/M_Smote.v
theories/S_Smote.v
theories/T_Smote.v
theories/P_Smote.v
theories/M_Gen.v
theories/S_Gen.v
theories/T_Gen.v
theories/P_Gen.v
theories/M_Fs.v
theories/S_Fs.v
theories/T_Fs.v
theories/P_Fs.v
theories/M_Fixed.v
theories/S_Fixed.v
theories/L_Fixed.v
theories/T_Fixed.v
theories/P_Fixed.v
theories/T_Load2.v
theories/P_Load2.v
theories/M_Weight.v
theories/S_Weight.v
theories/T_Weight.v
theories/P_Weight.v
theories/M_Ima.v
theories/S_Ima.v
theories/L_Ima.v
theories/T_Ima.v
theories/P_Ima.v
theories/M_Balanced.v
theories/T_Balanced.v
theories/P_Balanced.v
theories/M_Imad.v
theories/T_Imad.v
theories/P_Imad.v
theories/M_Report.v
theories/S_Report.v
theories/T_Report.v
theories/P_Report.v
theories/M_Eq.v
theories/S_Eq.v
theories/T_Eq.v
theories/P_Eq.v
theories/M_Load2.v
theories/S_Load2.v
theories/T_Load3.v
theories/P_Load3.v
theories/M_Border.v
theories/S_Border.v
theories/L_Border.v
theories/T_Border.v
theories/P_Border.v
theories/M_Dsm.v
theories/S_Dsm.v
theories/T_Dsm.v
theories/P_Dsm.v
theories/M_Awv.v
theories/S_Awv.v
theories/T_Awv.v
theories/P_Awv.v
theories/M_Bag.v
theories/T_Bag.v
theories/P_Bag.v
theories/M_Pcom.v
theories/T_Pcom.v
theories/P_Pcom.v
theories/M_Pq.v
theories/S_Pq.v
theories/L_Pq.v
theories/T_Prune.v
theories/T_Vis.v
theories/T_Both.v
theories/T_Pq.v
theories/P_Pq.v
theories/P_Prune.v
theories/P_Vis.v
theories/P_Both.v
theories/T_Pqx.v
theories/P_Pqx.v
theories/M_Aos.v
theories/S_Aos.v
theories/L_Aos.v
theories/L_Aos2.v
theories/L_Aos3.v
theories/L_Aos4.v
theories/T_Aos.v
theories/P_Aos.v
theories/T_Never.v
theories/P_Never.v
theories/T_Heavy.v
theories/P_Heavy.v
theories/M_Lazy.v
theories/S_Lazy.v
theories/L_Lazy.v
theories/T_Lazy.v
theories/P_Lazy.v
theories/M_Copies.v
theories/S_Copies.v
theories/L_Copies.v
theories/L_Copies2.v
theories/L_Copies3.v
theories/L_Copies4.v
theories/L_Copies5.v
theories/T_Copies.v
theories/P_Copies.v
theories/M_Folders.v
theories/S_Folders.v
theories/L_Folders.v
theories/L_Folders2.v
theories/T_Folders.v
theories/P_Folders.v
theories/M_Plot.v
theories/S_Plot.v
theories/L_Plot.v
theories/L_Plot2.v
theories/L_Plot3.v
theories/T_Plot.v
theories/P_Plot.v
theories/M_Range.v
theories/S_Range.v
theories/L_Range.v
theories/T_Range.v
theories/P_Range.v
theories/M_Lines.v
theories/S_Lines.v
theories/M_Session.v
theories/S_Session.v
theories/L_Session.v
theories/T_Lines.v
theories/P_Lines.v
theories/T_Session.v
theories/P_Session.v
theories/M_Dtoa.v
theories/S_Dtoa.v
theories/L_Dtoa.v
theories/T_Dtoa.v
theories/P_Dtoa.v
theories/M_Look.v
theories/S_Look.v
theories/L_Look.v
theories/T_Look.v
theories/P_Look.v
theories/M_Gp.v
theories/S_Gp.v
theories/L_Gp.v
theories/T_Gp.v
theories/P_Gp.v
theories/M_GpFiles.v
theories/S_GpFiles.v
theories/L_GpFiles.v
theories/T_GpFiles.v
theories/P_GpFiles.v
theories/M_ImaF.v
theories/T_ImaF.v
theories/M_PText.v
theories/S_PText.v
theories/T_PText.v
theories/M_KernelSet.v
theories/S_KernelSet.v
theories/T_KernelSet.v
theories/M_RandPt.v
theories/T_RandPt.v
theories/P_ImaF.v
theories/P_PText.v
theories/P_RandPt.v
theories/P_KernelSet.v
theories/M_KmVar.v
theories/S_KmVar.v
theories/T_KmVar.v
theories/P_KmVar.v
theories/M_F64.v
theories/S_F64.v
theories/L_F64.v
theories/T_F64.v
theories/T_F64b.v
theories/T_F64c.v
theories/P_F64.v
theories/P_F64b.v
theories/P_F64c.v
theories/S_FStep.v
theories/T_FStep.v
theories/S_ImaRate.v
theories/T_ImaRate.v
theories/P_FStep.v
theories/P_ImaRate.v
theories/T_Retrain.v
theories/P_Retrain.v
theories/T_AwvSafe.v
theories/P_AwvSafe.v
theories/M_F64d.v
theories/S_F64d.v
theories/L_F64d.v
theories/T_F64d.v
theories/P_F64d.v
theories/M_KmStart.v
theories/T_KmStart.v
theories/M_Rates.v
theories/T_Rates.v
theories/P_KmStart.v
theories/P_Rates.v
theories/T_Hass.v
theories/P_Hass.v
theories/T_Sampling2.v
theories/P_Sampling2.v
theories/M_Regr.v
theories/T_Regr.v
theories/P_Regr.v
theories/M_AosRank.v
theories/S_AosRank.v
theories/T_AosRank.v
theories/P_AosRank.v
theories/M_Mod.v
theories/T_Mod.v
theories/P_Mod.v
theories/M_PNorm.v
theories/S_PNorm.v
theories/T_PNorm.v
theories/P_PNorm.v
theories/M_IntStat.v
theories/S_IntStat.v
theories/T_IntStat.v
theories/P_IntStat.v
theories/M_IntArith.v
theories/T_IntArith.v
theories/P_IntArith.v
theories/M_Batch.v
theories/S_Batch.v
theories/T_Batch.v
theories/P_Batch.v
