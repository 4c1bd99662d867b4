-Q theories Verif
theories/Base.v
theories/Logic.v
theories/SpecBase.v
theories/SpecCore.v
theories/SpecImage.v
theories/SpecImage2.v
theories/SpecPixel.v
theories/ModelFloat.v
theories/ModelCore.v
theories/ModelImage.v
theories/ModelBorder.v
theories/ModelPixel.v
theories/SpecNum.v
theories/SpecVector.v
theories/ModelConv.v
theories/ModelVector.v
theories/ModelMath.v
theories/ModelDouble.v
theories/SpecMatrix.v
theories/SpecFilter.v
theories/SpecMorph.v
theories/SpecMorph2.v
theories/SpecStat.v
theories/ModelMatrix.v
theories/ModelFilter.v
theories/ModelMorph.v
theories/ModelStat.v
theories/SpecDft.v
theories/SpecDraw.v
theories/ModelDft.v
theories/ModelDraw.v
theories/Fixtures.v
theories/Fixtures2.v
theories/ProofFloat.v
theories/ProofFloat2.v
theories/ProofCore.v
theories/ProofLayout.v
theories/ProofHM.v
theories/ProofImage.v
theories/ProofCopy.v
theories/ProofImage2.v
theories/ProofCore2.v
theories/ProofEx.v
theories/ProofCore3.v
theories/ProofRange.v
theories/ProofImage3.v
theories/ProofImage4.v
theories/ProofEx2.v
theories/ProofBorder.v
theories/ProofPixel.v
theories/ProofPad.v
theories/ProofThresh.v
theories/ProofFlip.v
theories/ProofColor.v
theories/ProofColor2.v
theories/ProofEx3.v
theories/ProofWord.v
theories/ProofConv.v
theories/ProofWeighted.v
theories/ProofArr.v
theories/ProofMath.v
theories/ProofVector.v
theories/ProofEx4.v
theories/ProofEx5.v
theories/ProofGrid.v
theories/ProofMatrix.v
theories/ProofFold.v
theories/ProofGauss.v
theories/ProofInvert.v
theories/ProofEx6.v
theories/ProofDiv.v
theories/ProofLoop.v
theories/ProofDft.v
theories/ProofDraw.v
theories/ProofEx7.v
theories/ProofGrad.v
theories/ProofFilter.v
theories/ProofEx8.v
theories/ProofMorph.v
theories/ProofMorph2.v
theories/ProofHist.v
theories/ProofStat.v
theories/ProofCalib.v
theories/ProofEx9.v
theories/ProofEx10.v
theories/ModelFile.v
theories/SpecFile.v
theories/SpecHdr.v
theories/ProofBmp.v
theories/ProofFile.v
theories/ProofHdr.v
theories/ProofHdr2.v
theories/ProofWave.v
theories/ProofSave.v
theories/ProofSave2.v
theories/ProofSave3.v
theories/ProofSave4.v
theories/ProofRaw.v
theories/ProofEx11.v
theories/ModelOrbit.v
theories/SpecOrbit.v
theories/ProofOrbit.v
theories/ProofOrbit2.v
theories/ModelAtof.v
theories/SpecAtof.v
theories/ProofAtof.v
theories/ProofAtof2.v
theories/ProofAtof3.v
theories/ProofEx12.v
theories/ModelCxx.v
theories/SpecCxx.v
theories/ProofCxx.v
theories/ProofEx13.v
theories/ModelCluster.v
theories/SpecCluster.v
theories/ProofCluster.v
theories/ProofCluster2.v
theories/ProofCluster3.v
theories/ProofCluster4.v
theories/ProofCluster5.v
theories/ProofEx14.v
theories/ModelCem.v
theories/SpecCorr.v
theories/ProofCem.v
theories/ProofCorr.v
theories/ProofEx15.v
theories/ModelGauss.v
theories/SpecGauss.v
theories/ProofErr.v
theories/ProofBlur.v
theories/ProofBlur2.v
theories/ProofBlur3.v
theories/ProofBlur4.v
theories/ProofBlur5.v
theories/ProofBlur6.v
theories/ProofFilter2.v
theories/ProofBlur7.v
theories/ProofBlur8.v
theories/ProofMorph3.v
theories/ProofEx16.v
theories/ModelSpectral.v
theories/SpecSpectral.v
theories/SpecScan.v
theories/ProofValid.v
theories/ProofSpectral.v
theories/ProofSpectral2.v
theories/ProofSpectral3.v
theories/ProofSpectral4.v
theories/ProofSpectral5.v
theories/ProofSpectral6.v
theories/ProofSpectral7.v
theories/ProofEx17.v
theories/SpecEnergy.v
theories/ProofSpectral8.v
theories/ProofEx18.v
theories/ModelGeom.v
theories/SpecGeom.v
theories/ProofGeom.v
theories/ProofGeom2.v
theories/ProofGeom3.v
theories/ProofRot.v
theories/ProofEx19.v
theories/ModelNorm.v
theories/SpecNorm.v
theories/ProofNorm.v
theories/ProofNorm2.v
theories/ProofNorm3.v
theories/ProofEx20.v
theories/ModelEigen.v
theories/SpecEigen.v
theories/ProofEigen.v
theories/ProofEigen2.v
theories/ProofEigen3.v
theories/ProofEigen4.v
theories/ProofEigen5.v
theories/ProofEx21.v
theories/ModelFourier.v
theories/SpecFourier.v
theories/ProofFourier.v
theories/ProofFourier2.v
theories/ProofFourier3.v
theories/ProofFourier4.v
theories/ProofEx22.v
theories/ModelShape.v
theories/SpecShape.v
theories/ProofShape.v
theories/ProofShape2.v
theories/ProofShape3.v
theories/ProofShape4.v
theories/ProofShape5.v
theories/ProofEx23.v
theories/ModelWavelet.v
theories/SpecWavelet.v
theories/ProofWavelet.v
theories/ProofEx24.v
theories/ModelPca.v
theories/SpecPca.v
theories/SpecPca2.v
theories/ProofPca.v
theories/ProofPca2.v
theories/ProofGrow.v
theories/ProofPca3.v
theories/ProofPca4.v
theories/ProofEx25.v
theories/ProofEx26.v
theories/ModelRest.v
theories/ModelShow.v
theories/SpecRest.v
theories/SpecShow.v
theories/ProofRest.v
theories/ProofShow.v
theories/ProofEx27.v
theories/ProofEx28.v
theories/ProofEx29.v
theories/SpecVar.v
theories/ProofDiv2.v
theories/ProofSum.v
theories/ProofRoot.v
theories/ProofRoot2.v
theories/ProofVar.v
theories/ProofVar2.v
theories/ProofVar3.v
theories/ProofSum2.v
theories/ProofEx30.v
theories/ProofEx31.v
theories/ProofEx32.v
theories/PropsCore.v
theories/PropsImage.v
theories/PropsPixel.v
theories/PropsNum.v
theories/PropsMatrix.v
theories/PropsAlgo.v
theories/PropsFilter.v
theories/PropsMorph.v
theories/PropsStat.v
theories/PropsFile.v
theories/PropsOrbit.v
theories/PropsAtof.v
theories/PropsCxx.v
theories/PropsCluster.v
theories/PropsCem.v
theories/PropsGauss.v
theories/PropsSpectral.v
theories/PropsGeom.v
theories/PropsNorm.v
theories/PropsEigen.v
theories/PropsFourier.v
theories/PropsShape.v
theories/PropsWavelet.v
theories/PropsPca.v
theories/PropsRest.v
theories/PropsShow.v
