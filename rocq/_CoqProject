-Q theories Verif
theories/LibBytes.v
theories/LibList.v
theories/M_Access.v
theories/M_Astro.v
theories/M_Back.v
theories/M_Bank.v
theories/M_Bar.v
theories/M_Base.v
theories/M_Beam.v
theories/M_Buffer.v
theories/M_BufferModes.v
theories/M_CStruct.v
theories/M_Cache.v
theories/M_Cal.v
theories/M_Cat.v
theories/M_Color.v
theories/M_Config.v
theories/M_Cor.v
theories/M_Corr.v
theories/M_CorrPy.v
theories/M_Deconv.v
theories/M_Dedisp.v
theories/M_Drspec.v
theories/M_Drx.v
theories/M_Files.v
theories/M_Find.v
theories/M_Flt.v
theories/M_Grid.v
theories/M_Header.v
theories/M_Idf.v
theories/M_Idi.v
theories/M_Kurt.v
theories/M_Ldp.v
theories/M_LdpAny.v
theories/M_LdpCT.v
theories/M_LdpReady.v
theories/M_LdpSpec.v
theories/M_Lock.v
theories/M_Log.v
theories/M_Math.v
theories/M_Medf.v
theories/M_Meta.v
theories/M_Mib.v
theories/M_Ndp.v
theories/M_Num.v
theories/M_Parser.v
theories/M_Py.v
theories/M_Reg.v
theories/M_Rf.v
theories/M_Robust.v
theories/M_Runs.v
theories/M_Scat.v
theories/M_Sdf.v
theories/M_SdfTime.v
theories/M_Sdm.v
theories/M_SimDrx.v
theories/M_Split.v
theories/M_Ssmif.v
theories/M_Str.v
theories/M_Tele.v
theories/M_Time.v
theories/M_Tobj.v
theories/M_Uvfits.v
theories/M_Uvw.v
theories/M_Vdif.v
theories/M_VdifTime.v
theories/M_Virt.v
theories/M_Vis.v
theories/M_VisPol.v
theories/P_Access.v
theories/P_AccessT.v
theories/P_Astro.v
theories/P_AstroT.v
theories/P_Back.v
theories/P_BackT.v
theories/P_Bank.v
theories/P_BankT.v
theories/P_Bar.v
theories/P_BarT.v
theories/P_Base.v
theories/P_BaseT.v
theories/P_Beam.v
theories/P_BeamA.v
theories/P_BeamB.v
theories/P_BeamT.v
theories/P_Buffer.v
theories/P_Buffer2.v
theories/P_BufferModes.v
theories/P_BufferT.v
theories/P_BusyT.v
theories/P_CStruct.v
theories/P_CStructL.v
theories/P_CStructT.v
theories/P_Cache.v
theories/P_CacheT.v
theories/P_Cal.v
theories/P_Cat.v
theories/P_CatA.v
theories/P_CatB.v
theories/P_CatF.v
theories/P_CatT.v
theories/P_Color.v
theories/P_ColorA.v
theories/P_ColorB.v
theories/P_ColorC.v
theories/P_ColorT.v
theories/P_Config.v
theories/P_ConfigT.v
theories/P_ConfigText.v
theories/P_ConfigTextT.v
theories/P_Cor.v
theories/P_CorDesc.v
theories/P_CorT.v
theories/P_Corr.v
theories/P_CorrAl.v
theories/P_CorrF.v
theories/P_CorrFX.v
theories/P_CorrPick.v
theories/P_CorrPsd.v
theories/P_CorrSpec.v
theories/P_CorrStokes.v
theories/P_CorrT.v
theories/P_CorrX.v
theories/P_CorrXT.v
theories/P_CorrY.v
theories/P_CorrYT.v
theories/P_CorrZ.v
theories/P_CorrZT.v
theories/P_Deconv.v
theories/P_DeconvC.v
theories/P_DeconvL.v
theories/P_DeconvM.v
theories/P_DeconvQ.v
theories/P_DeconvT.v
theories/P_Dedisp.v
theories/P_Dedisp2.v
theories/P_Dedisp3.v
theories/P_Dedisp4.v
theories/P_Dedisp5.v
theories/P_DedispT.v
theories/P_Drspec.v
theories/P_DrspecT.v
theories/P_Drx.v
theories/P_Drx2.v
theories/P_DrxT.v
theories/P_Files.v
theories/P_FilesT.v
theories/P_Find.v
theories/P_FindT.v
theories/P_Flt.v
theories/P_Grid.v
theories/P_GridC.v
theories/P_GridI.v
theories/P_GridP.v
theories/P_GridT.v
theories/P_Header.v
theories/P_HeaderP.v
theories/P_HeaderT.v
theories/P_HeaderW.v
theories/P_HeaderX.v
theories/P_Idf.v
theories/P_IdfAll.v
theories/P_IdfSample.v
theories/P_IdfT.v
theories/P_IdfValid.v
theories/P_Idi.v
theories/P_Idi2.v
theories/P_Idi3.v
theories/P_Idi4.v
theories/P_Idi5.v
theories/P_IdiT.v
theories/P_Kurt.v
theories/P_KurtT.v
theories/P_Ldp.v
theories/P_LdpAny.v
theories/P_LdpAny2.v
theories/P_LdpAny3.v
theories/P_LdpAnyT.v
theories/P_LdpCTT.v
theories/P_LdpReady.v
theories/P_LdpReadyT.v
theories/P_LdpSets.v
theories/P_LdpSpec.v
theories/P_LdpSpec2.v
theories/P_LdpSpecT.v
theories/P_LdpT.v
theories/P_Lock.v
theories/P_LockT.v
theories/P_Log.v
theories/P_LogD.v
theories/P_LogT.v
theories/P_Math.v
theories/P_MathS.v
theories/P_MathT.v
theories/P_Medf.v
theories/P_MedfT.v
theories/P_Meta.v
theories/P_MetaC.v
theories/P_MetaT.v
theories/P_Mib.v
theories/P_MibT.v
theories/P_Ndp.v
theories/P_Num.v
theories/P_Parser.v
theories/P_ParserT.v
theories/P_RegT.v
theories/P_Rf.v
theories/P_RfT.v
theories/P_Robust.v
theories/P_RobustA.v
theories/P_RobustB.v
theories/P_RobustC.v
theories/P_RobustD.v
theories/P_RobustE.v
theories/P_RobustF.v
theories/P_RobustG.v
theories/P_RobustT.v
theories/P_Scat.v
theories/P_ScatT.v
theories/P_Sdf.v
theories/P_SdfAll.v
theories/P_SdfBack.v
theories/P_SdfObs.v
theories/P_SdfRun.v
theories/P_SdfSample.v
theories/P_SdfStart.v
theories/P_SdfT.v
theories/P_SdfTime.v
theories/P_SdfTimeT.v
theories/P_SdfValid.v
theories/P_Sdm.v
theories/P_SdmT.v
theories/P_Split.v
theories/P_SplitT.v
theories/P_Ssmif.v
theories/P_SsmifB.v
theories/P_SsmifC.v
theories/P_SsmifI.v
theories/P_SsmifJ.v
theories/P_SsmifT.v
theories/P_Str.v
theories/P_Tbx.v
theories/P_Tele.v
theories/P_TeleT.v
theories/P_TeleUp.v
theories/P_Time.v
theories/P_TimeT.v
theories/P_Uvfits.v
theories/P_Uvfits2.v
theories/P_Uvfits3.v
theories/P_UvfitsT.v
theories/P_Uvw.v
theories/P_UvwA.v
theories/P_UvwB.v
theories/P_UvwT.v
theories/P_Vdif.v
theories/P_Vdif2.v
theories/P_Vdif3.v
theories/P_VdifT.v
theories/P_VdifTime.v
theories/P_Virt.v
theories/P_VirtT.v
theories/P_Vis.v
theories/P_Vis2.v
theories/P_Vis3.v
theories/P_VisData.v
theories/P_VisPol.v
theories/P_VisPol2.v
theories/P_VisPol3.v
theories/P_VisPol4.v
theories/P_VisPolT.v
theories/P_VisT.v
theories/S_Access.v
theories/S_Astro.v
theories/S_Back.v
theories/S_Bank.v
theories/S_Bar.v
theories/S_Base.v
theories/S_Beam.v
theories/S_Buffer.v
theories/S_CStruct.v
theories/S_Cache.v
theories/S_Cal.v
theories/S_Cat.v
theories/S_Color.v
theories/S_Config.v
theories/S_Cor.v
theories/S_CorRun.v
theories/S_Corr.v
theories/S_Deconv.v
theories/S_Dedisp.v
theories/S_Drspec.v
theories/S_DrspecRun.v
theories/S_Drx.v
theories/S_Files.v
theories/S_Find.v
theories/S_Grid.v
theories/S_Header.v
theories/S_Idf.v
theories/S_IdfValid.v
theories/S_Idi.v
theories/S_Kurt.v
theories/S_Ldp.v
theories/S_LdpAny.v
theories/S_LdpCT.v
theories/S_LdpReady.v
theories/S_LdpSpec.v
theories/S_Lock.v
theories/S_Log.v
theories/S_Math.v
theories/S_Medf.v
theories/S_Meta.v
theories/S_Mib.v
theories/S_Ndp.v
theories/S_Parser.v
theories/S_Reg.v
theories/S_Rf.v
theories/S_Robust.v
theories/S_Scat.v
theories/S_Sdf.v
theories/S_SdfTime.v
theories/S_SdfValid.v
theories/S_Sdm.v
theories/S_Split.v
theories/S_Ssmif.v
theories/S_Tele.v
theories/S_Uvfits.v
theories/S_Uvw.v
theories/S_Vdif.v
theories/S_VdifRun.v
theories/S_Virt.v
theories/S_Vis.v
theories/S_VisPol.v
theories/T_Access.v
theories/T_Astro.v
theories/T_Back.v
theories/T_Bank.v
theories/T_Bar.v
theories/T_Base.v
theories/T_Beam.v
theories/T_Buffer.v
theories/T_Busy.v
theories/T_CStruct.v
theories/T_Cache.v
theories/T_Cat.v
theories/T_Color.v
theories/T_Config.v
theories/T_ConfigText.v
theories/T_Cor.v
theories/T_Corr.v
theories/T_CorrX.v
theories/T_CorrY.v
theories/T_CorrZ.v
theories/T_Deconv.v
theories/T_Dedisp.v
theories/T_Drspec.v
theories/T_Drx.v
theories/T_Files.v
theories/T_Find.v
theories/T_Grid.v
theories/T_Header.v
theories/T_Idf.v
theories/T_Idi.v
theories/T_Kurt.v
theories/T_Ldp.v
theories/T_LdpAny.v
theories/T_LdpCT.v
theories/T_LdpReady.v
theories/T_LdpSpec.v
theories/T_Lock.v
theories/T_Log.v
theories/T_Math.v
theories/T_Medf.v
theories/T_Meta.v
theories/T_Mib.v
theories/T_Parser.v
theories/T_Reg.v
theories/T_Rf.v
theories/T_Robust.v
theories/T_Scat.v
theories/T_Sdf.v
theories/T_SdfTime.v
theories/T_Sdm.v
theories/T_Split.v
theories/T_Ssmif.v
theories/T_Tele.v
theories/T_Time.v
theories/T_Uvfits.v
theories/T_Uvw.v
theories/T_Vdif.v
theories/T_Virt.v
theories/T_Vis.v
theories/T_VisPol.v
