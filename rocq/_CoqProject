-Q theories Verif
theories/Bits.v
theories/BitBuf.v
theories/BitWrite.v
theories/Prog.v
theories/Escape.v
theories/Lem_Bits.v
theories/Props_Bits.v
theories/Asi.v
theories/Wp.v
theories/Frame.v
theories/Spec_Asi.v
theories/Lem_Asi.v
theories/Lem_AsiRT.v
theories/Lem_AsiData.v
theories/Lem_AsiProps.v
theories/Props_Asi.v
theories/Loud.v
theories/Mhas.v
theories/Wlp.v
theories/Spec_Mhas.v
theories/Loops.v
theories/Lem_Mhas.v
theories/Lem_MhasRT.v
theories/Lem_Pcm.v
theories/Lem_Loud.v
theories/Lem_Scan.v
theories/Lem_MhasProps.v
theories/Props_Mhas.v
theories/Cicp.v
theories/Hoa.v
theories/Config.v
theories/Leaf.v
theories/Spec_Config.v
theories/Lem_Config.v
theories/Lem_ConfigSafe.v
theories/Lem_Hoa.v
theories/Lem_HoaMat.v
theories/Lem_ConfigMem.v
theories/Lem_ConfigFrame.v
theories/Lem_ConfigWhole.v
theories/Lem_Dmx.v
theories/Lem_ConfigProps.v
theories/Lem_ConfigRT.v
theories/Lem_ConfigFin.v
theories/Props_Config.v
theories/Lem_AsiMore.v
theories/Props_AsiMore.v
theories/F32.v
theories/Oam.v
theories/Lem_OamSafe.v
theories/Spec_Oam.v
theories/Lem_OamRT.v
theories/Lem_OamRT2.v
theories/Lem_OamFrame.v
theories/Lem_OamDyn.v
theories/Lem_OamHist.v
theories/Lem_OamEnh.v
theories/Spec_OamEnh.v
theories/Lem_OamEnhRT.v
theories/Lem_OamRend.v
theories/Lem_OamFin.v
theories/Props_Oam.v
theories/Api.v
theories/Spec_Api.v
theories/Lem_Api.v
theories/Props_Api.v
theories/Ops.v
theories/Spec_Ops.v
theories/Lem_Ops.v
theories/Props_Ops.v
theories/Lem_F32.v
theories/Pcm.v
theories/Spec_Pcm.v
theories/Lem_PcmOut.v
theories/Lem_PcmMap.v
theories/Props_Pcm.v
theories/Lem_Round.v
theories/Limiter.v
theories/Spec_Lim.v
theories/Lem_Lim.v
theories/Props_Lim.v
theories/ArithRom.v
theories/Arith.v
theories/Spec_Arith.v
theories/Spec_Lines.v
theories/Lem_Arith.v
theories/Lem_ArithRT.v
theories/Lem_Level2.v
theories/Lem_Lines.v
theories/Props_Arith.v
theories/Session.v
theories/Lem_ConfigWlp.v
theories/Lem_Session.v
theories/Spec_Session.v
theories/Lem_SessionInv.v
theories/Lem_SessionPkt.v
theories/Lem_SessionWit.v
theories/Props_Session.v
theories/App.v
theories/Lem_App.v
theories/Lem_AppDec.v
theories/Props_App.v
theories/Preroll.v
theories/Spec_Preroll.v
theories/Lem_Preroll.v
theories/Props_Preroll.v
theories/Ei.v
theories/Spec_Ei.v
theories/Lem_Ei.v
theories/Lem_EiMore.v
theories/Props_Ei.v
theories/Mdp.v
theories/Spec_Mdp.v
theories/Lem_Mdp.v
theories/Lem_MdpOn.v
theories/Lem_MdpMore.v
theories/Props_Mdp.v
theories/DrcCfg.v
theories/Spec_Drc.v
theories/Lem_DrcCfg.v
theories/Lem_DrcGrp.v
theories/Spec_DrcCfg.v
theories/Lem_DrcRT.v
theories/Lem_DrcRTI.v
theories/Props_Drc.v
theories/DrcGain.v
theories/Spec_DrcGain.v
theories/Lem_DrcUv.v
theories/Lem_DrcTime.v
theories/Lem_DrcGain.v
theories/Lem_DrcGainSafe.v
theories/Lem_DrcGainRT.v
theories/Props_DrcGain.v
theories/DrcCurve.v
theories/Spec_DrcCurve.v
theories/Lem_DrcCurve.v
theories/Props_DrcCurve.v
theories/Mp4.v
theories/Spec_Mp4.v
theories/Lem_Mp4.v
theories/Lem_Mp4Safe.v
theories/Spec_Mp4Desc.v
theories/Lem_Mp4Desc.v
theories/Props_Mp4.v
theories/Spec_Flex.v
theories/Spec_ConfigFull.v
theories/Lem_ConfigFull.v
theories/Lem_ConfigElem.v
theories/Lem_ConfigAll.v
theories/Lem_Flex.v
theories/Lem_ConfigTop.v
theories/Props_ConfigFull.v
theories/ExtRen.v
theories/Spec_ExtRen.v
theories/Lem_ExtRen.v
theories/Lem_ExtRenCh.v
theories/Lem_ExtRenOb.v
theories/Lem_ExtRenHo.v
theories/Lem_ExtRenTot.v
theories/Lem_ExtRenWit.v
theories/ExtPcm.v
theories/Lem_ExtPcm.v
theories/Props_ExtRen.v
theories/Mct.v
theories/Spec_Mct.v
theories/Lem_MctHuff.v
theories/Lem_MctBand.v
theories/Lem_MctBox.v
theories/Lem_MctRT.v
theories/Lem_MctFrame.v
theories/Lem_MctSafe.v
theories/Lem_MctCut.v
theories/Lem_MctSeq.v
theories/Props_Mct.v
theories/MctProc.v
theories/Spec_MctProc.v
theories/Spec_MctFill.v
theories/Lem_MctProc.v
theories/Lem_MctFill.v
theories/Lem_MctPair.v
theories/Props_MctProc.v
theories/Displace.v
theories/Lem_Displace.v
theories/Props_Flex.v
theories/CoreIcs.v
theories/CoreSte.v
theories/CorePair.v
theories/Spec_CoreIcs.v
theories/Spec_CoreSte.v
theories/Spec_CorePair.v
theories/Lem_CoreIcs.v
theories/Lem_CoreTns.v
theories/Lem_CoreSte.v
theories/Lem_CorePair.v
theories/Lem_CoreSafe.v
theories/Lem_CoreProps.v
theories/Props_Core.v
theories/CoreScf.v
theories/Spec_CoreScf.v
theories/Lem_CoreScf.v
theories/Lem_CoreScfRun.v
theories/Lem_CoreScfSafe.v
theories/CoreBands.v
theories/Spec_CoreBands.v
theories/Lem_CoreBands.v
theories/Props_CoreScf.v
theories/CoreChan.v
theories/Spec_CoreChan.v
theories/Lem_CoreChan.v
theories/Lem_CoreChanProps.v
theories/Props_CoreChan.v
theories/IgfRom.v
theories/Igf.v
theories/Spec_Igf.v
theories/Lem_Igf.v
theories/Lem_IgfProps.v
theories/IgfData.v
theories/Spec_IgfData.v
theories/Lem_IgfData.v
theories/IgfInit.v
theories/Spec_IgfInit.v
theories/Lem_IgfInit.v
theories/Props_Igf.v
theories/GrpLay.v
theories/Spec_GrpLay.v
theories/Lem_GrpLay.v
theories/Props_GrpLay.v
theories/StartUp.v
theories/Spec_StartUp.v
theories/Lem_StartUp.v
theories/Props_StartUp.v
theories/HoaFrm.v
theories/Spec_HoaFrm.v
theories/Lem_HoaFrm.v
theories/Props_HoaFrm.v
theories/HoaVec.v
theories/Spec_HoaVec.v
theories/Lem_HoaVec.v
theories/Props_HoaVec.v
theories/Spec_HoaPred.v
theories/Lem_HoaPred.v
theories/Props_HoaPred.v
theories/Spec_HoaSym.v
theories/Lem_HoaSym.v
theories/Props_HoaSym.v
theories/Spec_HoaGain.v
theories/Lem_HoaGain.v
theories/Props_HoaGain.v
