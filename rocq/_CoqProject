-Q theories Verif
theories/Words.v
theories/WordFacts.v
theories/Spec.v
theories/SpecFacts.v
theories/CMem.v
theories/Contract.v
theories/CMemFacts.v
theories/ModelRef.v
theories/RoundFacts.v
theories/StateRep.v
theories/RefRound.v
theories/RefPrim.v
theories/RefAead.v
theories/RefAeadDec.v
theories/RefHash.v
theories/RefPrf.v
theories/RefPrfs.v
theories/ModelCommon.v
theories/ModelWords.v
theories/WordLaws.v
theories/BitExp.v
theories/WordInst.v
theories/WordInstBi.v
theories/ComPrim.v
theories/ComAead.v
theories/ComAeadDec.v
theories/ComHash.v
theories/ComPrf.v
theories/ModelLow.v
theories/LowAead.v
theories/LowDec.v
theories/LowHash.v
theories/ModelOpt8.v
theories/Opt8Round.v
theories/Opt8Prim.v
theories/Opt8Aead.v
theories/Opt8Dec.v
theories/Opt8Hash.v
theories/Opt8Prf.v
theories/Opt8Low.v
theories/ModelEsp32.v
theories/Esp32Prim.v
theories/Esp32Aead.v
theories/Esp32Hash.v
theories/AvrSpec.v
theories/AvrHash.v
theories/Asm.v
theories/Poly.v
theories/AsmArm.v
theories/ArmCode.v
theories/AsmRound.v
theories/ModelArm.v
theories/AsmArmFacts.v
theories/AsmAvr.v
theories/AvrCode.v
theories/ModelAvr.v
theories/AvrFacts.v
theories/PermBij.v
theories/AeadFacts.v
theories/Esp32Dec.v
theories/ApiSpec.v
theories/ApiFacts.v
theories/Ct.v
theories/RefCt.v
theories/ComCt.v
theories/Esp32Ct.v
theories/LowCt.v
theories/Opt8Ct.v
theories/ModelAvx.v
theories/AvxRound.v
theories/AvxAead.v
theories/AvxHash.v
theories/AvxCt.v
theories/ModelNeon.v
theories/NeonRound.v
theories/NeonAead.v
theories/NeonCt.v
theories/NeonApi.v
theories/Impls.v
theories/RefApi.v
theories/ComApi.v
theories/LowApi.v
theories/Opt8Api.v
theories/Esp32Api.v
theories/SepFacts.v
theories/ImplsOk.v
theories/Demo.v
theories/Refuted.v
theories/PropFacts.v
theories/Properties.v
theories/PropertiesWords.v
theories/PropertiesLow.v
theories/PropertiesAsm.v
theories/PropertiesAvr.v
theories/Esp32Long.v
theories/PropertiesEsp.v
theories/ModelMask.v
theories/MaskVal.v
theories/MaskRound.v
theories/MaskPerm.v
theories/MaskArr.v
theories/MaskShares.v
theories/MaskState.v
theories/MaskAead.v
theories/MaskDec.v
theories/MaskTop.v
theories/SpecMask.v
theories/MaskApi.v
theories/PropertiesMask.v
theories/SpecFast.v
theories/KAT.v
theories/Indep.v
theories/NeonFault.v
theories/PropertiesNeon.v
theories/Spec12.v
theories/Spec12Facts.v
theories/ModelRv.v
theories/ModelXt.v
theories/RvFacts.v
theories/RvRound.v
theories/RvMode.v
theories/RvCore.v
theories/RvSpec.v
theories/RvTop.v
theories/RvWords.v
theories/RvInst.v
theories/RvLaws.v
theories/RvFinal.v
theories/PropertiesRv.v
theories/RvCT.v
theories/RvCTLaws.v
theories/RvCTMode.v
theories/RvCTCore.v
theories/PropertiesRvCT.v
theories/XtSpec.v
theories/XtFacts.v
theories/XtHash.v
theories/XtAead.v
theories/XtMode.v
theories/XtCore.v
theories/XtTag.v
theories/XtTop.v
theories/PropertiesXtHash.v
theories/PropertiesXt.v
theories/ModelMaskCode.v
theories/SpecShare.v
theories/MaskProbe.v
theories/MaskProbeStep.v
theories/MaskProbeRound.v
theories/MaskProbeLin.v
theories/MaskProbePerm.v
theories/MaskShare.v
theories/MaskShareVal.v
theories/PropertiesMaskProbe.v
theories/MaskCt.v
theories/PropertiesMaskCt.v
theories/XtCT.v
theories/XtCTMode.v
theories/XtCTCore.v
theories/XtCTHash.v
theories/PropertiesXtCT.v
theories/SpecHide.v
theories/MaskHide.v
theories/PropertiesMaskHide.v
