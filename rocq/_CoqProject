-Q theories Verif
theories/AbsLib.v
theories/ClientLib.v
theories/Cpp.v
theories/CppAccess.v
theories/CppAccessCode.v
theories/CppAgree.v
theories/CppAgree1.v
theories/CppAgree2.v
theories/CppAgree3.v
theories/CppAgree4.v
theories/CppCode1.v
theories/CppCode2.v
theories/CppCode3.v
theories/CppCong.v
theories/CppHash.v
theories/CppHashCode.v
theories/CppModel.v
theories/CppNames.v
theories/CppProgram.v
theories/CppTac.v
theories/DomLib.v
theories/ErrExpr.v
theories/ErrLib.v
theories/F32Tac.v
theories/FloatAlg.v
theories/FloatBasics.v
theories/FloatOps.v
theories/GammaLib.v
theories/GridLib.v
theories/IEEE32.v
theories/Int32.v
theories/LenLib.v
theories/MatTac.v
theories/ModelAccess.v
theories/ModelBVec.v
theories/ModelColor.v
theories/ModelCommon.v
theories/ModelComp.v
theories/ModelConst.v
theories/ModelExp.v
theories/ModelGeom.v
theories/ModelHash.v
theories/ModelIVec.v
theories/ModelMat.v
theories/ModelMatrix.v
theories/ModelQuat.v
theories/ModelQuaternion.v
theories/ModelSwizzle.v
theories/ModelTransform.v
theories/ModelTrig.v
theories/ModelVec.v
theories/MonoLib.v
theories/NumLib.v
theories/OpLib.v
theories/Outcome.v
theories/OvfLib.v
theories/PfAccessText.v
theories/PfAxis.v
theories/PfBetween.v
theories/PfCamera.v
theories/PfChain.v
theories/PfClient.v
theories/PfColor.v
theories/PfCpp.v
theories/PfDecomp.v
theories/PfDepth.v
theories/PfDomain.v
theories/PfDrift.v
theories/PfEntry.v
theories/PfErr.v
theories/PfEuler.v
theories/PfExact.v
theories/PfExp.v
theories/PfFloat.v
theories/PfGeom.v
theories/PfHash.v
theories/PfHashText.v
theories/PfInt.v
theories/PfInterp.v
theories/PfInv.v
theories/PfInvQ.v
theories/PfLen.v
theories/PfLight.v
theories/PfLook.v
theories/PfLoop.v
theories/PfMap.v
theories/PfMat.v
theories/PfMono.v
theories/PfNlerp.v
theories/PfOctAcc.v
theories/PfOrder.v
theories/PfOrtho.v
theories/PfOvf.v
theories/PfPipe.v
theories/PfPlace.v
theories/PfProj.v
theories/PfQuat.v
theories/PfQuatAcc.v
theories/PfRamp.v
theories/PfRefract.v
theories/PfRot.v
theories/PfRotF.v
theories/PfRound.v
theories/PfScale.v
theories/PfScene.v
theories/PfSlerp.v
theories/PfSrgb.v
theories/PfSwizzle.v
theories/PfSym.v
theories/PfTransform.v
theories/PfVec.v
theories/PolyLib.v
theories/PropAccessText.v
theories/PropAxis.v
theories/PropBetween.v
theories/PropCamera.v
theories/PropChain.v
theories/PropClient.v
theories/PropColor.v
theories/PropCpp.v
theories/PropDecomp.v
theories/PropDepth.v
theories/PropDomain.v
theories/PropDrift.v
theories/PropEntry.v
theories/PropErr.v
theories/PropEuler.v
theories/PropExact.v
theories/PropExp.v
theories/PropFloat.v
theories/PropGeom.v
theories/PropHash.v
theories/PropHashText.v
theories/PropInt.v
theories/PropInterp.v
theories/PropInv.v
theories/PropInvQ.v
theories/PropLen.v
theories/PropLight.v
theories/PropLook.v
theories/PropLoop.v
theories/PropMap.v
theories/PropMat.v
theories/PropMono.v
theories/PropNlerp.v
theories/PropOctAcc.v
theories/PropOrder.v
theories/PropOrtho.v
theories/PropOvf.v
theories/PropPipe.v
theories/PropPlace.v
theories/PropProj.v
theories/PropQuat.v
theories/PropQuatAcc.v
theories/PropRamp.v
theories/PropRefract.v
theories/PropRot.v
theories/PropRotF.v
theories/PropRound.v
theories/PropScale.v
theories/PropScene.v
theories/PropSlerp.v
theories/PropSrgb.v
theories/PropSwizzle.v
theories/PropSym.v
theories/PropTransform.v
theories/PropVec.v
theories/QuatErrLib.v
theories/RealInst.v
theories/RealTac.v
theories/RelLib.v
theories/RotLib.v
theories/Scalar.v
theories/ScaleLib.v
theories/SlerpLib.v
theories/Spec.v
theories/SpecAcc.v
theories/SpecAccessText.v
theories/SpecAxis.v
theories/SpecCamera.v
theories/SpecChain.v
theories/SpecClient.v
theories/SpecColor.v
theories/SpecCpp.v
theories/SpecDecomp.v
theories/SpecDepth.v
theories/SpecDom.v
theories/SpecDrift.v
theories/SpecErr.v
theories/SpecEuler.v
theories/SpecF32.v
theories/SpecGeo.v
theories/SpecGrid.v
theories/SpecHashText.v
theories/SpecInv.v
theories/SpecLight.v
theories/SpecLook.v
theories/SpecLoop.v
theories/SpecMat.v
theories/SpecNlerp.v
theories/SpecOct.v
theories/SpecOrd.v
theories/SpecPipe.v
theories/SpecPlace.v
theories/SpecProj.v
theories/SpecR.v
theories/SpecRamp.v
theories/SpecRefract.v
theories/SpecRotF.v
theories/SpecScene.v
theories/SpecSlerp.v
theories/SpecSrgb.v
theories/SpecSwizzle.v
theories/SpecSym.v
theories/SymLib.v
theories/Types.v
theories/VecErrLib.v
