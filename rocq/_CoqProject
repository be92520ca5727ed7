-Q theories Verif
theories/Base.v
theories/Group.v
theories/Weier.v
theories/Fp.v
theories/Jac.v
theories/EC.v
theories/Mont63.v
theories/Pock.v
theories/Primes.v
theories/OrderCheck.v
theories/ModelK1.v
theories/Curves.v
theories/AllOrder.v
theories/ProofK1.v
theories/ModelECDSA.v
theories/ModelSM2F.v
theories/ModelSM2P.v
theories/Words.v
theories/SpecSM3.v
theories/ModelSM3.v
theories/ProofSM3.v
theories/ModelSM2S.v
theories/ModelApi.v
theories/SpecECDSA.v
theories/ProofECDSA.v
theories/ProofECDSA2.v
theories/ProofECDSA3.v
theories/ProofK1Api.v
theories/ProofK1Wit.v
theories/PropsK1.v
theories/ProofR1Api.v
theories/ProofR1Wit.v
theories/PropsR1.v
theories/PropsApi.v
theories/ProofSM2R.v
theories/ProofSM2F.v
theories/ProofSM2M.v
theories/PropsSM2F.v
theories/ProofSM2P.v
theories/ProofSM2T.v
theories/ProofSM2L.v
theories/SpecSM2.v
theories/ProofSM2S.v
theories/ProofSM2E.v
theories/ProofSM2A.v
theories/ProofSM2K.v
theories/ProofSM2W.v
theories/ProofSM2X.v
theories/PropsSM2.v
theories/ModelBlakeCode.v
theories/ModelBlake.v
theories/SpecBlake.v
theories/ProofBlakeC.v
theories/ProofBlake.v
theories/ProofBlake2s.v
theories/ModelSha3Code.v
theories/ModelSha3.v
theories/SpecSha3.v
theories/ProofSha3F.v
theories/ProofSha3.v
theories/ModelHash.v
theories/SpecHash.v
theories/ProofHash.v
theories/PropsHash.v
theories/Edw.v
theories/ModelSlp.v
theories/ModelEdCode.v
theories/ModelEd.v
theories/ProofSlp.v
theories/SpecEd.v
theories/ProofEdF.v
theories/EdHint.v
theories/EdCurve.v
theories/ProofEdG.v
theories/ProofEdC.v
theories/ProofEdT.v
theories/ProofEdN.v
theories/ProofEdM.v
theories/ProofEdR.v
theories/ModelEdDSA.v
theories/ProofEdS.v
theories/ProofEdX.v
theories/ModelEdPkg.v
theories/ProofEdA.v
theories/PropsEd.v
theories/ModelW64.v
theories/ModelPastaCode.v
theories/ProofW64.v
theories/ProofPastaF.v
theories/ModelPasta.v
theories/ProofPastaG.v
theories/ProofPastaH.v
theories/SpecPasta.v
theories/ProofPastaI.v
theories/ProofPastaP.v
theories/ProofPastaS.v
theories/PropsPasta.v
theories/ModelBlsF.v
theories/SpecBls.v
theories/ProofBlsF.v
theories/ModelX86.v
theories/ModelBlsAsm.v
theories/ProofX86.v
theories/ProofBlsAsm.v
theories/ProofBlsE.v
theories/PropsBls.v
theories/ModelBls.v
theories/BlsPrimes.v
theories/BlsPrimes2.v
theories/BlsCard.v
theories/BlsPrime.v
theories/BlsFp2.v
theories/SpecBlsG.v
theories/BlsFrob.v
theories/ProofBlsH.v
theories/ProofBlsI.v
theories/ProofBlsG.v
theories/SpecBlsSig.v
theories/SpecBlsPair.v
theories/ProofBlsJ.v
theories/ProofBlsK.v
theories/BlsG2Gen.v
theories/ProofBlsL.v
theories/BlsTors.v
theories/BlsExp.v
theories/SpecBlsHash.v
theories/SpecBlsMap.v
theories/PropsBlsApi.v
theories/ProofBlsM.v
theories/ProofBlsN.v
theories/IsoAlg.v
theories/ModelBlsEnc.v
theories/ProofBlsO.v
theories/ProofBlsQ.v
theories/ProofBlsR.v
theories/BlsEx.v
theories/ProofBlsS.v
theories/IsoHom.v
theories/ProofBlsT.v
theories/PropsBlsMap.v
theories/PropsBlsSig.v
theories/ModelSlice.v
theories/PropsSlice.v
theories/ModelCshaCode.v
theories/ModelCsha.v
theories/ProofCshaF.v
theories/ProofCshaG.v
theories/SpecCsha.v
theories/ProofCshaB.v
theories/ProofCshaW.v
theories/ProofCshaS.v
theories/ProofCshaX.v
theories/ProofCshaV.v
theories/PropsCsha.v
theories/PropsCshaSig.v
theories/ModelKeccakAsm.v
theories/ModelKeccakX.v
theories/ProofKeccakX.v
theories/PropsKeccak.v
theories/Tower.v
theories/ModelBlsGT.v
theories/SpecBlsGT.v
theories/BlsTower.v
theories/SpecBlsAte.v
theories/AteAlg.v
theories/ProofBlsU.v
theories/ProofBlsV.v
theories/ProofBlsW.v
theories/ProofBlsX.v
theories/ProofBlsY.v
theories/ProofBlsZ.v
theories/ProofBlsAA.v
theories/PropsBlsGT.v
theories/ProofBlsSq.v
theories/PropsBlsSq.v
theories/ModelSha3X.v
theories/PropsSha3X.v
theories/ProofPastaEx.v
theories/PropsPastaEx.v
theories/ModelBlsExp.v
theories/BlsGtNontriv.v
theories/PropsBlsExp.v
theories/PropsBlsOrd.v
theories/CycGroup.v
theories/PropsBlsKey.v
theories/BlsG2Cyc.v
theories/PropsBlsOne.v
theories/EcCyc.v
theories/PropsOneKey.v
theories/EcFour.v
theories/PropsFourKeys.v
theories/EcAlter.v
theories/PropsAlter.v
