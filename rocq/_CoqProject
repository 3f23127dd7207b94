-Q theories Verif
theories/Bytes.v
theories/UnitModel.v
theories/UnitProofs.v
theories/SpecBuf.v
theories/BufProofs.v
theories/PropsUnit.v
theories/OleModel.v
theories/OleBat.v
theories/SpecCFB.v
theories/OleProofs.v
theories/OleRead.v
theories/OleDev.v
theories/OleFsProofs.v
theories/PropsOle.v
theories/SpecCFBStrict.v
theories/PropsOleStrict.v
theories/RecModel.v
theories/SheetModel.v
theories/XfModel.v
theories/WbModel.v
theories/RecProofs.v
theories/RecFrames.v
theories/SpecXf.v
theories/XfProofs.v
theories/SpecXfOps.v
theories/PropsXf.v
theories/SheetProofs.v
theories/SheetTrace.v
theories/GlobTrace.v
theories/WbProofs.v
theories/XfInv.v
theories/Looks.v
theories/ApiModel.v
theories/SpecBiff.v
theories/BookRecs.v
theories/ApiInv.v
theories/SpecApi.v
theories/ApiEff.v
theories/SaveOk.v
theories/SaveRecs.v
theories/SaveRead.v
theories/SpecSaved.v
theories/SaveMeans.v
theories/FsBound.v
theories/Lookups.v
theories/DocLimits.v
theories/SavedView.v
theories/DemoDoc.v
theories/XfTrace.v
theories/SpecLook.v
theories/LookInv.v
theories/RefTrace.v
theories/LookStep.v
theories/FontUse.v
theories/Careful.v
theories/PropsCells.v
theories/SpecSheet.v
theories/SpecView.v
theories/ViewPay.v
theories/ViewLook.v
theories/FontLook.v
theories/CellLook.v
theories/Handles.v
theories/PalTrace.v
theories/ViewTrace.v
theories/PropsSheet.v
theories/PropsLook.v
theories/RowBlocks.v
theories/PropsRows.v
theories/PropsIndex.v
theories/SpecBook.v
theories/PropsBook.v
theories/PropsReadable.v
theories/SpecOrder.v
theories/PropsOrder.v
theories/RangeModel.v
theories/RangePaint.v
theories/SpecPaint.v
theories/RangeLooks.v
theories/PropsPaint.v
theories/PropsFonts.v
theories/PropsView.v
theories/SpecLegal.v
theories/Legal.v
theories/PropsLegal.v
theories/HpsfModel.v
theories/SpecHpsf.v
theories/PropsHpsf.v
theories/PropsHpsfExact.v
theories/Resave.v
theories/PropsSave.v
theories/SpecFile.v
theories/PropsFile.v
theories/SpecObj.v
theories/PropsObj.v
theories/SpecCont.v
theories/PropsCont.v
theories/PropsNotes.v
theories/FormulaModel.v
theories/SpecFormula.v
theories/PropsFormula.v
theories/PropsFormulaClass.v
theories/PropsFormulaSize.v
theories/SpecResult.v
theories/PropsResult.v
theories/QueryModel.v
theories/SpecQuery.v
theories/PropsQuery.v
theories/SpecMem.v
theories/MemModel.v
theories/MemProof.v
theories/MemInv.v
theories/MemSteps.v
theories/MemNodes.v
theories/MemCalls.v
theories/MemWrite.v
theories/MemPut.v
theories/PropsMem.v
theories/FlushModel.v
theories/PropsFlush.v
theories/PropsFlushDoc.v
theories/CApiModel.v
theories/SpecC.v
theories/CProofs.v
theories/PropsC.v
theories/IconvModel.v
theories/SpecIconv.v
theories/PropsIconv.v
theories/NoteModel.v
theories/SpecNote.v
theories/NoteProofs.v
theories/PropsNoteLook.v
theories/ModeModel.v
theories/SpecMode.v
theories/PropsMode.v
theories/PoolModel.v
theories/SpecPool.v
theories/PoolProofs.v
theories/PropsPool.v
theories/NumFmtModel.v
theories/SpecNumFmt.v
theories/PropsNumFmt.v
theories/EditModel.v
theories/SpecEdit.v
theories/PropsEdit.v
theories/KindModel.v
theories/SpecKind.v
theories/PropsKind.v
theories/IdxModel.v
theories/SpecIdx.v
theories/PropsIdx.v
