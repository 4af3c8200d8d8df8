-Q theories Verif
theories/LAddon.v
theories/LArchEnd.v
theories/LArchEndX.v
theories/LArchH.v
theories/LArchP.v
theories/LArchProps.v
theories/LArchR.v
theories/LArchW.v
theories/LAssign.v
theories/LBase.v
theories/LBoxes.v
theories/LBsp.v
theories/LBspSafe.v
theories/LChoice.v
theories/LCompare.v
theories/LCut.v
theories/LCutScript.v
theories/LDaedalus.v
theories/LDds.v
theories/LDefault.v
theories/LEnds.v
theories/LEnum.v
theories/LError.v
theories/LFloatProps.v
theories/LFloatText.v
theories/LForeign.v
theories/LFormat.v
theories/LGraph.v
theories/LGrow.v
theories/LIndex.v
theories/LInst.v
theories/LKind.v
theories/LLenient.v
theories/LLevel.v
theories/LLib.v
theories/LLoaded.v
theories/LLoadedProps.v
theories/LLogger.v
theories/LLoop.v
theories/LMds.v
theories/LMdsBin.v
theories/LMdsParse.v
theories/LMdsProps.v
theories/LMdsSafe.v
theories/LMesh.v
theories/LMeshEnd.v
theories/LMeshEndX.v
theories/LMeshIO.v
theories/LMeshMat.v
theories/LMeshRead.v
theories/LMmap.v
theories/LModel.v
theories/LModelMesh.v
theories/LMorph.v
theories/LMrm.v
theories/LMrmEnd.v
theories/LMrmInv.v
theories/LMrmSave.v
theories/LOpaque.v
theories/LPixels.v
theories/LSave.v
theories/LSaveGame.v
theories/LSaveGameP.v
theories/LScript.v
theories/LScriptEnd.v
theories/LSink.v
theories/LSinkTex.v
theories/LSource.v
theories/LSourceBox.v
theories/LSourceFont.v
theories/LSourceX.v
theories/LSourceY.v
theories/LSourceZ.v
theories/LStream.v
theories/LStreamHist.v
theories/LStreamProps.v
theories/LSym.v
theories/LTexDims.v
theories/LText.v
theories/LTextEnd.v
theories/LTexture.v
theories/LThrows.v
theories/LThrowsX.v
theories/LTrace.v
theories/LTransient.v
theories/LUnknown.v
theories/LVdf.v
theories/LVdfDisk.v
theories/LVdfProps.v
theories/LVdfSafe.v
theories/LVfs.v
theories/LVfsHist.v
theories/LVfsMount.v
theories/LVfsOps.v
theories/LVm.v
theories/LVmApi.v
theories/LVmCall.v
theories/LVmConst.v
theories/LVmDae.v
theories/LVmExact.v
theories/LVmLocals.v
theories/LVmOps.v
theories/LVmProps.v
theories/LVmRun.v
theories/LVmString.v
theories/LVob.v
theories/LVobC.v
theories/LVobD.v
theories/LVobE.v
theories/LVobF.v
theories/LVobProps.v
theories/LWorldEnd.v
theories/LWorldEndX.v
theories/LZipped.v
theories/MAddon.v
theories/MArchive.v
theories/MBase.v
theories/MBoxes.v
theories/MBsp.v
theories/MChoice.v
theories/MClasses.v
theories/MCompare.v
theories/MCutscene.v
theories/MDaedalus.v
theories/MError.v
theories/MIndex.v
theories/MLevel.v
theories/MLib.v
theories/MLogger.v
theories/MMaterial.v
theories/MMesh.v
theories/MMmap.v
theories/MModel.v
theories/MMrm.v
theories/MNpc.v
theories/MSave.v
theories/MSaveGame.v
theories/MScript.v
theories/MSink.v
theories/MSinkTex.v
theories/MSource.v
theories/MSourceBox.v
theories/MSourceFont.v
theories/MSourceTex.v
theories/MStream.v
theories/MTexDims.v
theories/MText.v
theories/MTexture.v
theories/MTransient.v
theories/MVfs.v
theories/MVm.v
theories/MVob.v
theories/MVobs.v
theories/MWorld.v
theories/MZipped.v
theories/PropertiesAddon.v
theories/PropertiesArchEnd.v
theories/PropertiesArchive.v
theories/PropertiesAssign.v
theories/PropertiesBoxIO.v
theories/PropertiesBsp.v
theories/PropertiesChoice.v
theories/PropertiesCompare.v
theories/PropertiesCut.v
theories/PropertiesDaedalus.v
theories/PropertiesDefault.v
theories/PropertiesEnds.v
theories/PropertiesEnum.v
theories/PropertiesError.v
theories/PropertiesFormats.v
theories/PropertiesGrow.v
theories/PropertiesIndex.v
theories/PropertiesInst.v
theories/PropertiesKind.v
theories/PropertiesLenient.v
theories/PropertiesLevel.v
theories/PropertiesLoaded.v
theories/PropertiesLog.v
theories/PropertiesLoop.v
theories/PropertiesMesh.v
theories/PropertiesMeshRead.v
theories/PropertiesMrm.v
theories/PropertiesSave.v
theories/PropertiesSaveGame.v
theories/PropertiesScript.v
theories/PropertiesScriptEnd.v
theories/PropertiesSource.v
theories/PropertiesStream.v
theories/PropertiesTexDims.v
theories/PropertiesTrace.v
theories/PropertiesTransient.v
theories/PropertiesVfs.v
theories/PropertiesVobs.v
theories/PropertiesWorldEnd.v
theories/SAddon.v
theories/SArchEnd.v
theories/SArchive.v
theories/SAssign.v
theories/SBoxes.v
theories/SBsp.v
theories/SBspFile.v
theories/SChoice.v
theories/SCompare.v
theories/SCompiled.v
theories/SDaedalus.v
theories/SEnum.v
theories/SError.v
theories/SFloat.v
theories/SForeign.v
theories/SFormat.v
theories/SGrow.v
theories/SIndex.v
theories/SInst.v
theories/SKind.v
theories/SLenient.v
theories/SLevel.v
theories/SLib.v
theories/SLoaded.v
theories/SLogger.v
theories/SLoop.v
theories/SMesh.v
theories/SMeshEnd.v
theories/SMeshRead.v
theories/SMmap.v
theories/SMorph.v
theories/SMrm.v
theories/SReload.v
theories/SSave.v
theories/SSaveGame.v
theories/SScript.v
theories/SScriptEnd.v
theories/SSink.v
theories/SSource.v
theories/SSourceTex.v
theories/SStream.v
theories/SSym.v
theories/STexDims.v
theories/STexture.v
theories/SThrows.v
theories/STrace.v
theories/STransient.v
theories/SUnknown.v
theories/SVdf.v
theories/SVfs.v
theories/SVm.v
theories/SVmConst.v
theories/SVmLocals.v
theories/SVmOps.v
theories/SVmProps.v
theories/SVmString.v
theories/SVob.v
theories/SWorldEnd.v
theories/SZipped.v
