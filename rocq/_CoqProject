-Q theories Verif
theories/Base.v
theories/ColdModel.v
theories/ColdSpec.v
theories/ColdLemmas.v
theories/ColdProof.v
theories/ColdProps.v
theories/SortModel.v
theories/SortProof.v
theories/SortProps.v
theories/Calendar.v
theories/LibModel.v
theories/LibProps.v
theories/FrontModel.v
theories/FrontProps.v
theories/SparseProps.v
theories/ColdTop.v
theories/ObModel.v
theories/ObProps.v
theories/Layout.v
theories/Validate.v
theories/PyIndex.v
theories/FloatIndex.v
theories/Prepare.v
theories/Sched.v
theories/Hpc.v
theories/Segment.v
theories/Export.v
theories/Classify.v
theories/Tile.v
theories/SccdModel.v
theories/SccdProof.v
theories/SccdTop.v
theories/SccdPack.v
theories/SccdTerm.v
theories/SccdApi.v
theories/SccdToy.v
theories/SccdProps.v
theories/SccdProps2.v
theories/SccdRefuted.v
theories/SccdExamples.v
theories/Kalman.v
theories/Angle.v
theories/SccdResume.v
theories/SccdProps3.v
theories/SccdSplitEx.v
theories/ColdProps2.v
theories/ColdProps3.v
theories/Fit.v
theories/ColdProps4.v
theories/ObProps2.v
theories/SccdProps4.v
theories/SccdSnow.v
theories/SsmInit.v
theories/Mask.v
theories/Objects.v
theories/Covermap.v
theories/CoverHpc.v
theories/Obia.v
theories/SccdDecide.v
theories/SccdPins.v
theories/Greening.v
theories/SccdTrace.v
theories/CoefMap.v
theories/PyUtils.v
theories/KfDaily.v
theories/Strides.v
theories/GeoBox.v
theories/PrepDates.v
theories/SccdTest.v
theories/Season.v
theories/StartTest.v
theories/Rank.v
theories/SccdStart.v
theories/ColdPass.v
theories/ColdPast.v
theories/ColdShift.v
theories/ObPass.v
theories/ObAgain.v
theories/ObShift.v
theories/ObCount.v
theories/ColdOb.v
theories/ColdObCall.v
theories/ObForget.v
