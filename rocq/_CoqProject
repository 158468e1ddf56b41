-Q theories Verif
theories/F64.v
theories/MathUtils.v
theories/ColorUtils.v
theories/StringUtils.v
theories/Contrast.v
theories/ViewingConditions.v
theories/Cam16.v
theories/HctSolver.v
theories/Hct.v
theories/Assoc.v
theories/Palettes.v
theories/LegacyScheme.v
theories/Score.v
theories/Temperature.v
theories/QuantizerMap.v
theories/QuantizerWu.v
theories/QuantizerWsmeans.v
theories/DynamicScheme.v
theories/DynamicColor.v
theories/MaterialDynamicColors.v
theories/Schemes.v
theories/FloatFacts.v
theories/FloatMono.v
theories/FloatCast.v
theories/Spec.v
theories/PfArgb.v
theories/PfMath.v
theories/PropsUtils.v
theories/PfColor.v
theories/PfContrast.v
theories/PropsColor.v
theories/SampleLibm.v
theories/SpecHct.v
theories/PfHct.v
theories/PfViewing.v
theories/PropsHct.v
theories/PfPlanes.v
theories/PfLimit.v
theories/PfNoPanic.v
theories/PropsSolver.v
theories/SpecPalette.v
theories/PfPalettes.v
theories/PropsPalette.v
theories/SpecScore.v
theories/PfScore.v
theories/PropsScore.v
theories/AssocFacts.v
theories/SpecQuantize.v
theories/PfQuantizeMap.v
theories/PfWuMoments.v
theories/SpecWu.v
theories/PfWuSums.v
theories/PfWuBoxes.v
theories/PfWu.v
theories/PropsQuantize.v
theories/SpecWsmeans.v
theories/PfWsmeans.v
theories/PfKmeans.v
theories/PropsWsmeans.v
theories/SpecTemperature.v
theories/PfTemperature.v
theories/PropsTemperature.v
theories/SpecScheme.v
theories/PfScheme.v
theories/PropsScheme.v
theories/RefLibm.v
theories/SpecTones.v
theories/PfTones.v
theories/PfLab.v
theories/PfReach.v
theories/PfRoles.v
theories/PfFixed.v
theories/PfFloor.v
theories/PfText.v
theories/PropsTones.v
theories/PfGamma.v
theories/PfLabTrip.v
theories/PfDelin.v
theories/PropsGamma.v
theories/SpecCam.v
theories/PfRefTrig.v
theories/PfNear.v
theories/PfVc.v
theories/PfCamA.v
theories/PfCamB.v
theories/PfRel.v
theories/PfCamC.v
theories/PfCamD.v
theories/PfCamE.v
theories/PfCamF.v
theories/PfCamG.v
theories/PfCamH.v
theories/PfCamTrip.v
theories/PfCamPanic.v
theories/PfCamProps.v
theories/PfHueReal.v
theories/PfHueMono.v
theories/HueGrid.v
theories/HueData.v
theories/PfHueGrid.v
theories/PfHueTable.v
theories/PfHueCheck.v
theories/PfHueVc.v
theories/PfHueSep.v
theories/PfHueAll.v
theories/PfHueProps.v
theories/SpecTotal.v
theories/PfTotal.v
theories/PropsCam.v
theories/PropsTotal.v
theories/SpecTone.v
theories/PfToneReal.v
theories/PfToneElast.v
theories/PfToneStep.v
theories/PfToneFin.v
theories/PfToneLin.v
theories/PfToneRound.v
theories/PfToneIter.v
theories/PfToneNext.v
theories/PfToneLoop.v
theories/PfToneInit.v
theories/PfToneVc.v
theories/PfToneCode.v
theories/PfToneEnd.v
theories/PfToneBudget.v
theories/PfTonePlane.v
theories/PfToneVertex.v
theories/PfToneProps.v
theories/PfToneRange.v
theories/PfToneHct.v
theories/PropsTone.v
theories/SpecToneRoles.v
theories/PfToneContrast.v
theories/PfToneScheme.v
theories/PfToneDynamic.v
theories/PfWarm.v
theories/PfToneCase.v
theories/PropsToneContrast.v
theories/SpecComplement.v
theories/PfComplement.v
theories/PfTempRange.v
theories/PfTempAll.v
theories/PropsComplement.v
theories/PfUcsA.v
theories/PfUcsB.v
theories/PfUcsC.v
theories/PfUcs.v
theories/PropsUcs.v
theories/PfToneOrder.v
theories/PropsRamp.v
theories/SpecExact.v
theories/PfExact.v
theories/PfSearchA.v
theories/SpecSearch.v
theories/PfSearch.v
theories/PfSearchB.v
theories/PfSearchCase.v
theories/PropsSearch.v
theories/Text.v
theories/SpecText.v
theories/PfShow.v
theories/PfShowCase.v
theories/PropsShow.v
theories/SpecAttr.v
theories/PfAttr.v
theories/PfDist.v
theories/PropsAttr.v
theories/SpecAnalogous.v
theories/PfAnalogous.v
theories/PropsAnalogous.v
theories/SpecWuBest.v
theories/PfWuBest.v
theories/PfWuCut.v
theories/PfWuRounds.v
theories/PfWuGreedy.v
theories/PropsWuBest.v
theories/SpecRoleTable.v
theories/PfRoleTable.v
theories/PropsRoleTable.v
theories/SpecCustom.v
theories/PfCustom.v
theories/PropsCustom.v
theories/SpecFew.v
theories/PfFew.v
theories/PfFewColors.v
theories/PropsFew.v
theories/PfNames.v
theories/SpecViewing.v
theories/PfViewingReal.v
theories/PfViewingAll.v
theories/PfViewingStd.v
theories/PropsViewing.v
theories/SpecAppear.v
theories/PfAppearReal.v
theories/PfAppearParts.v
theories/PfAppear.v
theories/PfAppearAll.v
theories/PropsAppear.v
theories/SpecCie.v
theories/PfCie.v
theories/PropsCie.v
theories/SpecWarm.v
theories/PfWarmth.v
theories/PropsWarm.v
theories/SpecLab.v
theories/PfLabFormula.v
theories/PropsLab.v
theories/SpecSolve.v
theories/PfSolve.v
theories/PfSolveHue.v
theories/PfSolveEnd.v
theories/PropsSolve.v
theories/SpecRender.v
theories/PfRender.v
theories/PfRenderRoles.v
theories/PropsRender.v
theories/SpecPale.v
theories/PfPale.v
theories/PfPaleLoop.v
theories/PfPaleEnd.v
theories/PfPaleUse.v
theories/PropsPale.v
