-Q theories Verif
theories/Base.v
theories/Flash.v
theories/BaseLemmas.v
theories/FlashWp.v
theories/NvmFlashModel.v
theories/NvmSpec.v
theories/NvmInv.v
theories/NvmFlashProof.v
theories/NvmFlashOps.v
theories/NvmHistory.v
theories/Store.v
theories/NvmTheorems.v
theories/NvmSim.v
theories/PropertiesNvm.v
theories/Flags.v
theories/KeyId.v
theories/NvmReqModel.v
theories/NvmReqProof.v
theories/PropertiesPolicy.v
theories/PropertiesKeyId.v
theories/CounterModel.v
theories/CounterProof.v
theories/PropertiesCounter.v
theories/RingBufModel.v
theories/LogFileModel.v
theories/LogFileSpec.v
theories/LogFileProof.v
theories/PropertiesLogFile.v
theories/DmaModel.v
theories/PropertiesMisc.v
theories/ImgModel.v
theories/ImgProof.v
theories/PropertiesImg.v
theories/EndianModel.v
theories/EndianProof.v
theories/MsgTable.v
theories/PropertiesEndian.v
theories/TimeoutModel.v
theories/TimeoutProof.v
theories/CommModel.v
theories/CommSpec.v
theories/CommProof.v
theories/ServerModel.v
theories/ServerProof.v
theories/PropertiesComm.v
theories/MemModel.v
theories/MemSpec.v
theories/MemProof.v
theories/PropertiesMem.v
theories/TcpModel.v
theories/TcpSpec.v
theories/TcpProof.v
theories/PropertiesTcp.v
theories/KsModel.v
theories/KsCache.v
theories/KsEff.v
theories/KsReq.v
theories/KsStep.v
theories/KsSys.v
theories/KsSysProof.v
theories/KsSpec.v
theories/KsKeep.v
theories/KsResp.v
theories/PropertiesKeys.v
theories/KsNi.v
theories/KsNiReq.v
theories/KsNiSys.v
theories/PropertiesUse.v
theories/KsGuard.v
theories/KsOnly.v
theories/PropertiesRevoke.v
theories/PropertiesWrap.v
theories/PropertiesOts.v
theories/AuthModel.v
theories/AuthCodec.v
theories/AuthRep.v
theories/AuthOps.v
theories/AuthEff.v
theories/AuthSys.v
theories/AuthSpec.v
theories/AuthInv.v
theories/PropertiesAuth.v
theories/SheModel.v
theories/SheSys.v
theories/SheSpec.v
theories/SheEff.v
theories/SheBoot.v
theories/SheInv.v
theories/SheUpd.v
theories/SheLoad.v
theories/PropertiesSheKey.v
theories/PropertiesShe.v
theories/CertModel.v
theories/CertSpec.v
theories/CertProof.v
theories/CertAnchor.v
theories/CertMore.v
theories/PropertiesCert.v
theories/LogModel.v
theories/LogSpec.v
theories/LogRam.v
theories/LogProof.v
theories/LogOps.v
theories/LogLife.v
theories/LogHist.v
theories/PropertiesLog.v
theories/HashModel.v
theories/HashSpec.v
theories/HashProof.v
theories/PropertiesHash.v
theories/CryptoBoundsModel.v
theories/CryptoBoundsSpec.v
theories/CryptoBoundsProof.v
theories/PropertiesCryptoBounds.v
theories/KdfModel.v
theories/KdfSpec.v
theories/PropertiesKdf.v
theories/AesSpec.v
theories/AesModel.v
theories/AesProof.v
theories/PropertiesAes.v
theories/CmacSpec.v
theories/CmacModel.v
theories/CmacProof.v
theories/PropertiesCmac.v
theories/ClientBoundsModel.v
theories/ClientBoundsSpec.v
theories/ClientBoundsProof.v
theories/PropertiesClientBounds.v
theories/PkModel.v
theories/PkSpec.v
theories/PkProof.v
theories/PropertiesPk.v
theories/ReqModel.v
theories/ReqSpec.v
theories/ReqProof.v
theories/PropertiesReq.v
theories/StatefulModel.v
theories/StatefulSpec.v
theories/StatefulProof.v
theories/PropertiesStateful.v
theories/FileFlashModel.v
theories/FileFlashSpec.v
theories/FileFlashProof.v
theories/PropertiesFileFlash.v
theories/ShmModel.v
theories/ShmSpec.v
theories/ShmProof.v
theories/PropertiesShm.v
theories/CbModel.v
theories/CbSpec.v
theories/CbProof.v
theories/PropertiesCb.v
theories/DmaWinModel.v
theories/DmaWinSpec.v
theories/DmaWinProof.v
theories/PropertiesDmaWin.v
theories/ClDmaModel.v
theories/ClDmaSpec.v
theories/ClDmaProof.v
theories/PropertiesClDma.v
theories/NscModel.v
theories/NscSpec.v
theories/NscProof.v
theories/PropertiesNsc.v
theories/LkModel.v
theories/LkSpec.v
theories/LkProof.v
theories/LkConc.v
theories/PropertiesLk.v
theories/AtModel.v
theories/AtSpec.v
theories/AtProof.v
theories/PropertiesAt.v
theories/SrndSpec.v
theories/SrndProof.v
theories/PropertiesSrnd.v
theories/ShdModel.v
theories/ShdSpec.v
theories/ShdProof.v
theories/PropertiesShd.v
theories/ShcModel.v
theories/ShcSpec.v
theories/ShcProof.v
theories/PropertiesShc.v
theories/TlsModel.v
theories/TlsSpec.v
theories/TlsProof.v
theories/PropertiesTls.v
theories/NvcModel.v
theories/NvcSpec.v
theories/NvcProof.v
theories/PropertiesNvc.v
theories/KycModel.v
theories/KycSpec.v
theories/KycCode.v
theories/KycProof.v
theories/PropertiesKyc.v
theories/CtcModel.v
theories/CtcSpec.v
theories/CtcProof.v
theories/PropertiesCtc.v
theories/RndModel.v
theories/RndSpec.v
theories/RndProof.v
theories/PropertiesRnd.v
theories/LeakModel.v
theories/LeakProof.v
theories/PropertiesLeak.v
theories/AucModel.v
theories/AucSpec.v
theories/AucCode.v
theories/AucProof.v
theories/PropertiesAuc.v
theories/HwkModel.v
theories/HwkSpec.v
theories/PropertiesHwk.v
theories/ConModel.v
theories/ConSpec.v
theories/PropertiesCon.v
theories/CcbModel.v
theories/CcbSpec.v
theories/PropertiesCcb.v
theories/CecModel.v
theories/CecSpec.v
theories/PropertiesCec.v
theories/CedModel.v
theories/CedSpec.v
theories/PropertiesCed.v
theories/AcrModel.v
theories/AcrSpec.v
theories/PropertiesAcr.v
theories/LineModel.v
theories/LineSpec.v
theories/PropertiesLine.v
theories/CmpModel.v
theories/CmpSpec.v
theories/PropertiesCmp.v
theories/TmsModel.v
theories/TmsSpec.v
theories/PropertiesTms.v
theories/LpfModel.v
theories/LpfSpec.v
theories/PropertiesLpf.v
