-Q theories Verif
theories/GoBase.v
theories/Utils.v
theories/Ibdata.v
theories/Redo.v
theories/Cmd.v
theories/SpecInno.v
theories/SpecText.v
theories/SpecSql.v
theories/PBase.v
theories/PWire.v
theories/PropWire.v
theories/PValue.v
theories/PCal.v
theories/PText.v
theories/PropValue.v
theories/SpecRecord.v
theories/SpecRow.v
theories/PRec.v
theories/PropRec.v
theories/PSql.v
theories/PropSql.v
theories/SpecPage.v
theories/PPage.v
theories/PNode.v
theories/PropPage.v
theories/PFile.v
theories/PropFile.v
theories/SpecDict.v
theories/PDict.v
theories/PMove.v
theories/PPair.v
theories/POrdered.v
theories/PropDict.v
theories/SpecRedo.v
theories/SpecUndo.v
theories/PRedo.v
theories/PStep.v
theories/PUndo.v
theories/PLog.v
theories/PFilter.v
theories/PropRedo.v
theories/POut.v
theories/SpecCmd.v
theories/PropCmd.v
theories/SpecTool.v
theories/PTool.v
theories/PBuild.v
theories/PropTool.v
theories/PropTree.v
theories/Todo.v
theories/SpecTodo.v
theories/PTodo.v
theories/PropTodo.v
theories/SpecToolRedo.v
theories/PToolRedo.v
theories/PropToolRedo.v
theories/SpecHistory.v
theories/PHistory.v
theories/PropHistory.v
theories/SpecLoad.v
theories/SpecOwn.v
theories/PFreed.v
theories/PropLoad.v
theories/PropOwn.v
theories/PropNull.v
theories/PropHelpers.v
theories/PCut.v
theories/PropCut.v
theories/SpecTypes.v
theories/PTypes.v
theories/PropTypes.v
theories/PRows.v
theories/PropRows.v
theories/PropLog.v
theories/PropPair.v
theories/PSaid.v
theories/PropSet.v
theories/PropPrefix.v
theories/PropVirtual.v
theories/PropOrder.v
theories/PropFilter.v
theories/PropCircle.v
theories/PropSum.v
theories/PropSize.v
theories/PropDrop.v
theories/PStored.v
theories/SpecName.v
theories/PropName.v
theories/SpecSmall.v
theories/PropSmall.v
theories/SpecLarge.v
theories/PLarge.v
theories/PropLarge.v
theories/SpecChars.v
theories/PChars.v
theories/PropChars.v
theories/SpecOld.v
theories/POld.v
theories/PropOld.v
theories/SpecSeal.v
theories/PropSeal.v
theories/SpecLine.v
theories/PLine.v
theories/PropLine.v
theories/PMake.v
theories/SpecJson.v
theories/PropJson.v
theories/Main.v
theories/SpecMain.v
theories/PropMain.v
theories/SpecAccept.v
theories/PropAccept.v
theories/SpecTrx.v
theories/PropTrx.v
theories/SpecUnique.v
theories/PropUnique.v
theories/PropUniqueRedo.v
theories/SpecKeys.v
theories/PropKeys.v
theories/SpecInject.v
theories/PropInject.v
theories/SpecInjectRedo.v
theories/PropInjectRedo.v
theories/PropInjectKey.v
theories/PropPartKey.v
theories/PropOutsideMany.v
theories/PropKeyTime.v
theories/SpecOutside.v
theories/PropOutside.v
theories/PropGeometry.v
theories/PropVarchar.v
theories/PropChar.v
theories/PropStamp.v
theories/PropVirtualOld.v
theories/PropUniqueOld.v
theories/PropPrefixOld.v
theories/PropOrderOld.v
