-Q theories Verif
theories/Base.v
theories/PBase.v
theories/MHeap.v
theories/SHeap.v
theories/PHeap.v
theories/PropsHeap.v
theories/MNames.v
theories/PNames.v
theories/PropsNames.v
theories/MTypes.v
theories/STypes.v
theories/PTypes.v
theories/PropsTypes.v
theories/MHeader.v
theories/SHeader.v
theories/PHeader.v
theories/PropsHeader.v
theories/MWork.v
theories/SWork.v
theories/PWork.v
theories/PTmpl.v
theories/PropsWork.v
theories/PDocs.v
theories/PDocs2.v
theories/PropsDocs.v
theories/MNum.v
theories/SNum.v
theories/PNum.v
theories/PNum2.v
theories/PNum3.v
theories/PNum4.v
theories/PropsNum.v
theories/SLiteral.v
theories/PLiteral.v
theories/PLiteral2.v
theories/PropsLiteral.v
theories/MXml.v
theories/MNs.v
theories/SXml.v
theories/SSpell.v
theories/PSpell.v
theories/PXml.v
theories/PXml2.v
theories/SNs.v
theories/PNs.v
theories/PNs2.v
theories/SScope.v
theories/PScope.v
theories/PropsXml.v
theories/MEnum.v
theories/PEnum.v
theories/MRefTab.v
theories/MRef.v
theories/SEnum.v
theories/PRef.v
theories/PropsEnum.v
theories/MCodec.v
theories/SCodec.v
theories/PCodec.v
theories/PPiece.v
theories/PIdent.v
theories/MElem0.v
theories/PElem0.v
theories/PElemRef.v
theories/MElem1.v
theories/SElem1.v
theories/PElem1.v
theories/MElemA.v
theories/SElemA.v
theories/PElemA.v
theories/MElemB.v
theories/SElemB.v
theories/PElemB.v
theories/MElemC.v
theories/SElemC.v
theories/PElemC.v
theories/MElem2.v
theories/SElem2.v
theories/PElem2.v
theories/MElemD.v
theories/SElemD.v
theories/PElemD.v
theories/MElem3.v
theories/SElem3.v
theories/PElem3.v
theories/MElem4.v
theories/SElem4.v
theories/PElem4.v
theories/MElemE.v
theories/SElemE.v
theories/PElemE.v
theories/MElem5.v
theories/SElem5.v
theories/PElem5.v
theories/MElemF.v
theories/SElemF.v
theories/PElemF.v
theories/MArxml.v
theories/SArxml.v
theories/PArxml.v
theories/PropsArxml.v
theories/PStable.v
theories/PropsStable.v
theories/MStr.v
theories/SElem.v
theories/PSame.v
theories/PropsElem.v
theories/MValue.v
theories/SValue.v
theories/PValue.v
theories/PropsValue.v
theories/MFind.v
theories/MConn.v
theories/SFind.v
theories/PFind.v
theories/PConn.v
theories/PropsConn.v
theories/MEvent.v
theories/SEvent.v
theories/PEvent.v
theories/PropsEvent.v
theories/MPort.v
theories/SPort.v
theories/PPort.v
theories/PropsPort.v
theories/MAccess.v
theories/SAccess.v
theories/PAccess.v
theories/PropsAccess.v
theories/MRunnable.v
theories/SRunnable.v
theories/PRunnable.v
theories/PropsRunnable.v
theories/SFormat.v
theories/PropsFormat.v
theories/MConfig.v
theories/SConfig.v
theories/PConfig.v
theories/PropsConfig.v
theories/MIface.v
theories/SIface.v
theories/PIface.v
theories/PropsIface.v
theories/SInline.v
theories/PInline.v
theories/PropsInline.v
theories/MData.v
theories/SData.v
theories/PData.v
theories/PropsData.v
theories/SOrder.v
theories/POrder.v
theories/POrder1.v
theories/POrder2.v
theories/POrder3.v
theories/POrder4.v
theories/POrder5.v
theories/PropsOrder.v
theories/MConst.v
theories/SConst.v
theories/PConst.v
theories/PropsConst.v
theories/MParts.v
theories/SParts.v
theories/PParts.v
theories/PropsParts.v
theories/MPoint.v
theories/MOccur.v
theories/SPoint.v
theories/SOccur.v
theories/PPoint.v
theories/POccur.v
theories/PropsPoint.v
theories/PropsOccur.v
theories/MComp.v
theories/SComp.v
theories/PComp.v
theories/PropsComp.v
theories/MSelf.v
theories/SSelf.v
theories/PropsSelf.v
theories/MMap.v
theories/SMap.v
theories/PMap.v
theories/PropsMap.v
theories/SKept.v
theories/PKept.v
theories/PropsKept.v
theories/SSave0.v
theories/PSave0.v
theories/SSave.v
theories/PSave.v
theories/PropsSave.v
theories/PPrefix.v
theories/MFile.v
theories/PropsFile.v
theories/SReload.v
theories/PropsReload.v
theories/SRun.v
theories/PRun.v
theories/PropsRun.v
theories/PropsSpell.v
theories/PropsNs.v
theories/MPack.v
theories/SFit.v
theories/PFit.v
theories/PMade.v
theories/PMade2.v
theories/SBuilt.v
theories/PBuilt.v
theories/PropsBuilt.v
theories/MMeth.v
theories/SMeth.v
theories/PMeth.v
theories/PropsMeth.v
theories/MDispatch.v
theories/SDispatch.v
theories/PDispatch.v
theories/PropsDispatch.v
theories/MReport.v
theories/SReport.v
theories/PReport.v
theories/PropsReport.v
theories/MLook.v
theories/SLook.v
theories/PLook.v
theories/PUsed.v
theories/PropsLook.v
theories/SDisk.v
theories/PropsDisk.v
theories/PropsDisk2.v
theories/SRaise.v
theories/PRaise.v
theories/PropsRaise.v
theories/PRaiseW.v
theories/PRaiseD.v
theories/PropsRaiseW.v
