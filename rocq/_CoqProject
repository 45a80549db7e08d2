-Q theories Verif
theories/Scalar.v
theories/MErfcx.v
theories/MMath.v
theories/MConst.v
theories/MTreloar.v
theories/MIdeal.v
theories/MFjc.v
theories/MSwfjc.v
theories/MEfjc.v
theories/MMorse.v
theories/MLennardJones.v
theories/MLogSquared.v
theories/MWlc.v
theories/MMonteCarlo.v
theories/MConstitutive.v
theories/SpecThermo.v
theories/SpecChains.v
theories/PBase.v
theories/PLift.v
theories/PIdentIdeal.v
theories/PIdentFjc.v
theories/PIdentSwfjc.v
theories/PIdentEfjc.v
theories/PIdentMorse.v
theories/PIdentLennardJones.v
theories/PIdentLogSquared.v
theories/PIdentWlc.v
theories/PropsIdentities.v
theories/PHyp.v
theories/PConj.v
theories/PQuad.v
theories/PConjQuad.v
theories/SpecLinks.v
theories/PConjSolved.v
theories/PConjWlc.v
theories/PropsConjugacy.v
theories/SpecDamage.v
theories/PDamage.v
theories/PropsConstitutive.v
theories/F64.v
theories/PQuadError.v
theories/SpecNewton.v
theories/PNewton.v
theories/SpecLangevin.v
theories/PLangevin.v
theories/PInvLangevin.v
theories/PSigmoid.v
theories/PFloat.v
theories/PropsMath.v
theories/SpecMonteCarlo.v
theories/PMonteCarlo.v
theories/PHistogram.v
theories/PropsMonteCarlo.v
theories/PObjects.v
theories/PropsObjects.v
theories/SpecWalk.v
theories/SpecIsometric.v
theories/PIrwinHall.v
theories/PWalk.v
theories/PTreloar.v
theories/PIsometric.v
theories/PropsIsometric.v
theories/SpecGauss.v
theories/PGauss.v
theories/PIdealDist.v
theories/PropsIdealDist.v
theories/SpecModified.v
theories/PModified.v
theories/PStrong.v
theories/PWeak.v
theories/PModifiedZ.v
theories/PropsModified.v
theories/PNormalised.v
theories/PropsNormalised.v
theories/SpecErf.v
theories/PErfPoly.v
theories/PPi.v
theories/PErf.v
theories/PErfRows.v
theories/PErfc.v
theories/PropsErf.v
theories/PLambert.v
theories/SpecBessel.v
theories/PBessel.v
theories/PropsSpecial.v
theories/SpecInverse.v
theories/PInverse.v
theories/PropsInverse.v
theories/PFloatNan.v
theories/PLjStretch.v
theories/PLimits.v
theories/PConjLj.v
theories/PropsLimits.v
theories/SpecPartition.v
theories/PPartition.v
theories/PEfjcExact.v
theories/PEfjcExact2.v
theories/PLaplace.v
theories/PPartition2.v
theories/PropsPartition.v
theories/SpecNetwork.v
theories/PNetwork.v
theories/PropsNetwork.v
theories/SpecPartial.v
theories/PPartial.v
theories/SpecReference.v
theories/PReference.v
theories/PropsPartial.v
theories/SpecWorm.v
theories/PWorm.v
theories/PropsWorm.v
theories/PWormExample.v
theories/PConjWlcBound.v
theories/SpecStability.v
theories/PConvex.v
theories/PStability.v
theories/PropsStability.v
theories/MArray.v
theories/MExtern.v
theories/MPython.v
theories/MBindConstitutive.v
theories/SpecArray.v
theories/PArray.v
theories/PPython.v
theories/PBindConstitutive.v
theories/PBindExample.v
theories/PropsExtern.v
theories/PropsPython.v
theories/PropsBindConstitutive.v
theories/PBesselODE.v
theories/PBesselNum.v
theories/PBesselLarge.v
theories/PBesselAccuracy.v
theories/MJuliaBase.v
theories/SpecJulia.v
theories/PJuliaBase.v
theories/MJulia.v
theories/PJulia.v
theories/PJuliaExamples.v
theories/PropsJulia.v
theories/SpecModLimits.v
theories/PModLimits.v
theories/PropsModLimits.v
theories/MPyTree.v
theories/SpecPyTree.v
theories/PPyTree.v
theories/PropsPyTree.v
theories/SpecDouble.v
theories/PDouble.v
theories/PDoubleFjc.v
theories/PDoubleExample.v
theories/PropsDouble.v
theories/PDoubleQuad.v
theories/PDoubleQuadExample.v
theories/PropsDoubleQuad.v
theories/SpecSampling.v
theories/PSphere.v
theories/PSampling.v
theories/PSamplingWalk.v
theories/PSamplingRotate.v
theories/PropsSampling.v
theories/PPolyLaw.v
theories/PRadialLaw.v
theories/SpecSampled.v
theories/PSampled.v
theories/PSampledFjc.v
theories/PSampledProps.v
theories/PropsSampled.v
theories/SpecNormal.v
theories/PNormal.v
theories/PNormalChain.v
theories/PropsNormal.v
theories/SpecDoubleIso.v
theories/PDoubleIso.v
theories/PDoubleRel.v
theories/PDoubleSum.v
theories/PDoubleDensity.v
theories/PDoubleIsoLib.v
theories/PropsDoubleIso.v
theories/SpecBell.v
theories/PBell.v
theories/PBellFjc.v
theories/PropsBell.v
theories/SpecFenchel.v
theories/PFenchel.v
theories/PFenchelChains.v
theories/PropsFenchel.v
theories/PEfjcExact3.v
theories/PEfjcSolve.v
theories/PEfjcStored.v
theories/PropsSolve.v
theories/PModulus.v
theories/PropsModulus.v
theories/SpecReverse.v
theories/PReverse.v
theories/PReverseTreloar.v
theories/PReverseOther.v
theories/PReverseRefuted.v
theories/PReverseNan.v
theories/PropsReverse.v
theories/SpecHooke.v
theories/PHooke.v
theories/PHookeStrong.v
theories/PHookeAsymptotic.v
theories/PHookeLinks.v
theories/PropsHooke.v
theories/PReverseWorm.v
theories/SpecSofter.v
theories/PSofter.v
theories/PSofterLog.v
theories/PSofterLj.v
theories/PStabilityLinks.v
theories/PropsSofter.v
theories/SpecHeating.v
theories/PHeating.v
theories/PropsHeating.v
theories/PLambertNeg.v
theories/SpecCold.v
theories/PCold.v
theories/PropsCold.v
theories/SpecThermal.v
theories/PThermal.v
theories/PropsThermal.v
theories/SpecUnits.v
theories/PUnits.v
theories/PUnitsMore.v
theories/PropsUnits.v
theories/PUnitsModified.v
theories/SpecStiffens.v
theories/PStiffens.v
theories/PGivesWay.v
theories/PStiffensUnits.v
theories/PropsStiffens.v
theories/PReverseWormMid.v
theories/SpecMoments.v
theories/PMoments.v
theories/PropsMoments.v
theories/SpecTaut.v
theories/PTaut.v
theories/PropsTaut.v
theories/PWormFails.v
theories/PWormReturns.v
theories/SpecAnswers.v
theories/PWormAnswers.v
theories/PropsAnswers.v
theories/PWormResponse.v
theories/PDoubleEfjc.v
theories/PDoubleUnits.v
theories/PDoubleContour.v
theories/PropsContour.v
theories/PDoubleOrder.v
theories/PDoubleMonotone.v
theories/PDoubleLibm.v
theories/SpecSampler.v
theories/PDoubleMonte.v
theories/PropsSampler.v
theories/PDoubleEfjcMonte.v
theories/PDoubleFrc.v
theories/PDoubleHist.v
theories/SpecHistory.v
theories/PDoubleDamage.v
theories/PropsHistory.v
theories/PDoubleMono.v
theories/PDoubleMonoExample.v
theories/PropsQuadOrder.v
theories/PDoubleSign.v
theories/PDoubleIntact.v
theories/PDoubleUnsigned.v
theories/PropsDensity.v
theories/PDoubleMono2.v
theories/PDoubleBins.v
theories/PropsBins.v
