-Q theories Verif
theories/PyBase.v
theories/PyInt.v
theories/Utf.v
theories/Cp1251.v
theories/PyFile.v
theories/Container.v
theories/Spec_Container.v
theories/ContainerHex.v
theories/ContainerToc.v
theories/ContainerProofs.v
theories/ContainerMore.v
theories/ContainerDefects.v
theories/ContainerBounds.v
theories/ContainerShift.v
theories/Times.v
theories/Paths.v
theories/Props_Container.v
theories/ContainerCut.v
theories/ContainerCut2.v
theories/ContainerCut3.v
theories/ContainerCut4.v
theories/Props_Cut.v
theories/PyText.v
theories/PyB64.v
theories/B64.v
theories/Brace.v
theories/JsonText.v
theories/JsonTextProofs.v
theories/Spec_Brace.v
theories/BraceProofs.v
theories/BraceSim.v
theories/BraceMain.v
theories/BraceFile.v
theories/BraceMore.v
theories/JsonSim.v
theories/Props_Brace.v
theories/Descent.v
theories/Spec_Descent.v
theories/DescentProofs.v
theories/DescentHist.v
theories/DescentDir.v
theories/DescentDefects.v
theories/Props_Descent.v
theories/Header.v
theories/Directives.v
theories/ExtError.v
theories/CalcOffset.v
theories/Retry.v
theories/HeaderProofs.v
theories/Spec_Misc.v
theories/MiscProofs.v
theories/Props_Misc.v
theories/Json.v
theories/UpdateDict.v
theories/Index.v
theories/Spec_Index.v
theories/UpdateDictProofs.v
theories/IndexProofs.v
theories/IndexLookup.v
theories/Props_Index.v
theories/OrgCode.v
theories/Spec_Code.v
theories/OrgCodeProofs.v
theories/OrgCodePaths.v
theories/OrgCodePack.v
theories/OrgCodeSplit.v
theories/Props_Code.v
theories/EncodeLoop.v
theories/EncodeLoopProofs.v
theories/Spec_Encode.v
theories/EncodeLoopMain.v
theories/EncodeLoopSpec.v
theories/Props_Encode.v
theories/FormCode.v
theories/Spec_Form.v
theories/FormProofs.v
theories/Props_Form.v
theories/Pipeline.v
theories/JsonStage.v
theories/Spec_Stage.v
theories/Spec_Pipeline.v
theories/PipelineProofs.v
theories/PipelineMore.v
theories/JsonStageProofs.v
theories/JsonStageBack.v
theories/JsonStageMain.v
theories/Props_Pipeline.v
theories/Props_Stage.v
theories/Codecs.v
theories/ObjCode.v
theories/Spec_Obj.v
theories/ObjCodeProofs.v
theories/ObjCodeMain.v
theories/ObjCodeEdit.v
theories/Props_Obj.v
theories/Payload.v
theories/Spec_Payload.v
theories/PayloadProofs.v
theories/PayloadEdit.v
theories/PayloadTmpl.v
theories/PayloadPic.v
theories/Props_Payload.v
theories/JsonObj.v
theories/MetaObj.v
theories/Spec_MetaObj.v
theories/MetaObjBase.v
theories/MetaObjPart.v
theories/MetaObjGood.v
theories/MetaObjList.v
theories/MetaObjMain.v
theories/Classes.v
theories/ClassesProofs.v
theories/CanonCheck.v
theories/Props_MetaObj.v
theories/Types.v
theories/Include.v
theories/Spec_Include.v
theories/IncludeProofs.v
theories/IncludeMain.v
theories/Tree.v
theories/Spec_Tree.v
theories/TreeProofs.v
theories/TreeBuild.v
theories/Real.v
theories/Spec_Real.v
theories/RealProofs.v
theories/RealMain.v
theories/RealFiles.v
theories/Root.v
theories/Spec_Root.v
theories/RootCore.v
theories/RootLists.v
theories/RootTree.v
theories/RootVersions.v
theories/RootSteps.v
theories/RootDetect.v
theories/RootOpts.v
theories/RootConfig.v
theories/RootProc.v
theories/RootExt.v
theories/Props_Include.v
theories/Props_Tree.v
theories/RootMain.v
theories/RootWhole.v
theories/Props_Root.v
theories/FormElem.v
theories/Spec_FormElem.v
theories/FormElemBase.v
theories/FormElemProofs.v
theories/FormElemList.v
theories/FormElemMain.v
theories/FormElemDescr.v
theories/FormElemPlain.v
theories/FormElemCheck.v
theories/Props_FormElem.v
theories/FormJson.v
theories/FormJsonGood.v
theories/Form27.v
theories/Spec_Form27.v
theories/Form27Proofs.v
theories/Form27Dec.v
theories/Form27Main.v
theories/Props_Form27.v
theories/Form27Json.v
theories/Form27Good.v
theories/Form.v
theories/Spec_FormObj.v
theories/FormObjElem.v
theories/FormObjBody.v
theories/FormObjMain.v
theories/FormObjEdit.v
theories/Props_FormObj.v
theories/FormReal.v
theories/Spec_FormReal.v
theories/FormRealProofs.v
theories/FormCont.v
theories/Props_FormReal.v
theories/OrgForm.v
theories/Spec_OrgForm.v
theories/OrgFormProofs.v
theories/OrgFormMain.v
theories/OrgFormDocs.v
theories/OrgFormGood.v
theories/Props_OrgForm.v
theories/OrgTree.v
theories/Spec_OrgTree.v
theories/OrgTreePaths.v
theories/OrgTreeProofs.v
theories/OrgFormAgain.v
theories/OrgTreeElems.v
theories/OrgTreeMain.v
theories/OrgTreeCase.v
theories/Props_OrgTree.v
theories/OrgIndex.v
theories/Spec_OrgIndex.v
theories/OrgIndexPaths.v
theories/OrgIndexProofs.v
theories/OrgIndexMain.v
theories/Props_OrgIndex.v
theories/Spec_OrgAgain.v
theories/OrgAgain.v
theories/Props_OrgAgain.v
theories/Props_FormAgain.v
theories/Spec_CodeEdit.v
theories/Props_CodeEdit.v
theories/PipelineItems.v
theories/Whole.v
theories/Spec_Whole.v
theories/WholeProofs.v
theories/WholeMain.v
theories/WholeInfo.v
theories/Props_Whole.v
theories/Driver.v
theories/Spec_Driver.v
theories/DriverProofs.v
theories/DriverMain.v
theories/DriverProducts.v
theories/Props_Driver.v
theories/Spec_Again.v
theories/RealSame.v
theories/Spec_EndToEnd.v
theories/RootSame.v
theories/EndToEnd.v
theories/EndRoot.v
theories/EndFolders.v
theories/EndSplit.v
theories/EndCase.v
theories/EndCaseOrg.v
theories/Props_EndToEnd.v
