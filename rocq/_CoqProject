-Q theories Verif
theories/Prelude.v
theories/CacheModel.v
theories/CacheSpec.v
theories/CacheProofs.v
theories/CacheSizeProofs.v
theories/SortProofs.v
theories/PaginateProofs.v
theories/LifecycleModel.v
theories/LifecycleProofs.v
theories/CacheLemmas.v
theories/CacheProps.v
theories/LifecycleProps.v
theories/Counting.v
theories/ClsModel.v
theories/RocModel.v
theories/ClsSpec.v
theories/ClsLabelProofs.v
theories/ClsProofs.v
theories/ClsConfProofs.v
theories/RocProofs.v
theories/RocMain.v
theories/FlowModel.v
theories/FlowProofs.v
theories/FlowMore.v
theories/ClsLemmas.v
theories/ClsMore.v
theories/ClsExampleProofs.v
theories/ClsDemo.v
theories/ClsProps.v
theories/RocCurve.v
theories/RocProps.v
theories/FlowProps.v
theories/DetModel.v
theories/DetExModel.v
theories/DetSpec.v
theories/DetGeomProofs.v
theories/DetMatchProofs.v
theories/DetRankProofs.v
theories/DetCountProofs.v
theories/DetApProofs.v
theories/DetLoaderProofs.v
theories/DetStoreProofs.v
theories/DetFlowModel.v
theories/Pipeline.v
theories/DetFlowProofs.v
theories/DetLocalProofs.v
theories/DetMain.v
theories/DetApEnd.v
theories/DetOrderProofs.v
theories/DetConfProofs.v
theories/DetMatchingProofs.v
theories/DetConfOrder.v
theories/DetExampleProofs.v
theories/DetReportModel.v
theories/DetEnd.v
theories/DetMore.v
theories/DetDemo.v
theories/DetProps.v
theories/DetScoreModel.v
theories/DetScoreSpec.v
theories/DetScoreProofs.v
theories/DetScoreTies.v
theories/DetScoreProps.v
theories/DetFilterModel.v
theories/DetFilterSpec.v
theories/DetFilterProofs.v
theories/DetFilterEntries.v
theories/DetFilterPruned.v
theories/DetFilterMain.v
theories/DetFilterMore.v
theories/DetInfoProofs.v
theories/DetFilterProps.v
theories/ClsFilterModel.v
theories/ClsFilterSpec.v
theories/ClsFilterProofs.v
theories/ClsFilterCounts.v
theories/ClsFilterMain.v
theories/ClsFilterRoc.v
theories/ClsFilterProps.v
theories/ClsReportModel.v
theories/ClsReportSpec.v
theories/ClsReportProofs.v
theories/ClsReportMore.v
theories/ClsReportProps.v
theories/SegModel.v
theories/SegSpec.v
theories/SegPixelProofs.v
theories/SegValidProofs.v
theories/SegProofs.v
theories/SegStoreProofs.v
theories/SegLabelProofs.v
theories/SegFlowProofs.v
theories/SegMetricProofs.v
theories/SegInfoProofs.v
theories/SegMore.v
theories/SegDemo.v
theories/SegProps.v
theories/TextModel.v
theories/TextSpec.v
theories/TextReadProofs.v
theories/TextScoreProofs.v
theories/TextLoopProofs.v
theories/TextSafeProofs.v
theories/TextMoreProofs.v
theories/TextDemo.v
theories/TextProps.v
theories/FloatModel.v
theories/FloatProofs.v
theories/FloatCurveProofs.v
theories/FloatProps.v
theories/DetImage.v
theories/DetReorderSpec.v
theories/DetImageRank.v
theories/DetReorderProofs.v
theories/DetReorderProps.v
theories/SegReorderSpec.v
theories/SegReorderProofs.v
theories/SegReorderProps.v
theories/GeoModel.v
theories/GeoSpec.v
theories/GeoProofs.v
theories/GeoDemo.v
theories/GeoProps.v
theories/PromptText.v
theories/PromptModel.v
theories/PromptSpec.v
theories/PromptProofs.v
theories/PromptRunProofs.v
theories/PromptDemo.v
theories/PromptProps.v
theories/PageSpec.v
theories/PageLemmas.v
theories/ClsPageModel.v
theories/ClsPageSpec.v
theories/ClsPageProofs.v
theories/ClsCellModel.v
theories/ClsCellSpec.v
theories/ClsCellProofs.v
theories/ClsPageProps.v
theories/DetTurnSpec.v
theories/DetTurnProofs.v
theories/DetPicture.v
theories/DetPictureLists.v
theories/DetPairOrder.v
theories/DetPictured.v
theories/DetCellModel.v
theories/DetCellSpec.v
theories/DetCellLoop.v
theories/DetCellProofs.v
theories/DetCellProps.v
theories/MetricModel.v
theories/MetricSpec.v
theories/MetricProofs.v
theories/MetricDet.v
theories/MetricMore.v
theories/MetricInside.v
theories/MetricProps.v
theories/MetricSegProps.v
theories/BleuModel.v
theories/BleuProofs.v
theories/BleuProps.v
theories/RndProofs.v
theories/FReportModel.v
theories/FReportSpec.v
theories/FReportProofs.v
theories/FReportMain.v
theories/FReportCls.v
theories/FReportDet.v
theories/FReportSegSpec.v
theories/FReportSeg.v
theories/FReportRoc.v
theories/FReportRocMain.v
theories/FReportDemo.v
theories/FReportProps.v
theories/FTextModel.v
theories/FTextSpec.v
theories/FTextProofs.v
theories/FTextMain.v
theories/FTextOrder.v
theories/FTextDoc.v
theories/FTextProps.v
theories/FBoxModel.v
theories/FBoxSpec.v
theories/FBoxProofs.v
theories/FBoxMain.v
theories/FBoxProps.v
theories/PathModel.v
theories/PathSpec.v
theories/PathProofs.v
theories/PathMain.v
theories/PathReach.v
theories/PathClass.v
theories/PathProps.v
theories/ClsManySpec.v
theories/ClsManyProofs.v
theories/ClsManyProps.v
theories/DetPickSpec.v
theories/DetPick.v
theories/DetTieOrder.v
theories/DetAddSpec.v
theories/DetAddProofs.v
theories/DetAddMatrix.v
theories/DetAddProps.v
theories/DetMetaModel.v
theories/DetMetaSpec.v
theories/DetMetaProofs.v
theories/DetMetaMain.v
theories/DetMetaProps.v
theories/ClsMetaModel.v
theories/ClsMetaSpec.v
theories/ClsMetaProofs.v
theories/ClsMetaMain.v
theories/ClsMetaProps.v
theories/DetLabelSpec.v
theories/DetLabelProofs.v
theories/DetLabelAp.v
theories/DetLabelMain.v
theories/DetRescoreProofs.v
theories/DetLabelProps.v
theories/DetLowSpec.v
theories/DetLowProofs.v
theories/DetLowProps.v
theories/ClsRescoreSpec.v
theories/ClsRescoreProofs.v
theories/ClsRescoreMain.v
theories/ClsRescoreProps.v
theories/SegWarnModel.v
theories/SegWarnSpec.v
theories/SegWarnProofs.v
theories/SegWarnMain.v
theories/SegWarnProps.v
theories/ReadModel.v
theories/ReadSpec.v
theories/ReadProofs.v
theories/ReadProps.v
theories/DetArrayModel.v
theories/DetArraySpec.v
theories/DetArrayProofs.v
theories/DetArrayMain.v
theories/DetArrayFilter.v
theories/DetArrayProps.v
theories/ClsArrayModel.v
theories/ClsArraySpec.v
theories/ClsArrayProofs.v
theories/ClsArrayMain.v
theories/ClsArrayProps.v
theories/SegLoadSpec.v
theories/SegLoadProofs.v
theories/SegLoadProps.v
theories/DetUnpackModel.v
theories/DetUnpackSpec.v
theories/DetUnpackProofs.v
theories/DetLoadSpec.v
theories/DetLoadProofs.v
theories/DetLoadProps.v
theories/DetConfArrayModel.v
theories/DetConfArrayProofs.v
theories/DetConfArrayProps.v
theories/SegArrayModel.v
theories/SegArrayProofs.v
theories/SegArrayMain.v
theories/SegArrayProps.v
theories/DetLoadExProofs.v
theories/ClsLoadExProofs.v
theories/LoadExProps.v
theories/DetUnpackFloat.v
theories/FloatShown.v
theories/DetFloatProps.v
theories/ClsOrderSpec.v
theories/ClsOrderProofs.v
theories/ClsOrderProps.v
theories/DetChainSpec.v
theories/DetChainProofs.v
theories/DetChainProps.v
theories/SegChainSpec.v
theories/SegChainProofs.v
theories/SegChainProps.v
theories/ClsRenameSpec.v
theories/ClsRenameProofs.v
theories/ClsRenameCell.v
theories/ClsRenameProps.v
theories/DetRenameSpec.v
theories/DetRenameProofs.v
theories/DetRenameCell.v
theories/DetRenameProps.v
theories/SegRenameSpec.v
theories/SegRenameProofs.v
theories/SegRenameProps.v
theories/ClsThrSpec.v
theories/ClsThrProofs.v
theories/ClsThrProps.v
theories/RepeatSpec.v
theories/RepeatProofs.v
theories/ClsRepeatProofs.v
theories/DetRepeatProofs.v
theories/SegRepeatProofs.v
theories/ClsRepeatProps.v
theories/DetRepeatProps.v
theories/SegRepeatProps.v
theories/SegSwapSpec.v
theories/SegSwapProofs.v
theories/SegSwapProps.v
theories/PerfectProofs.v
theories/ClsPerfectSpec.v
theories/ClsPerfectProofs.v
theories/ClsPerfectProps.v
theories/DetPerfectProofs.v
theories/DetPerfectProps.v
theories/SegPerfectSpec.v
theories/SegPerfectProofs.v
theories/SegPerfectProps.v
theories/ZeroProofs.v
theories/ClsZeroProofs.v
theories/ClsZeroProps.v
theories/DetZeroProofs.v
theories/DetZeroProps.v
theories/SegZeroProofs.v
theories/SegZeroProps.v
theories/RocPerfectProofs.v
theories/RocPerfectProps.v
theories/SegRelateProofs.v
theories/SegRelateProps.v
theories/UnionProofs.v
theories/ClsUnionProofs.v
theories/ClsUnionProps.v
theories/DetUnionProofs.v
theories/DetUnionProps.v
theories/ApExtremeProofs.v
theories/ApExtremeProps.v
theories/MeanExtremeProofs.v
theories/MeanExtremeProps.v
theories/SegMeanProofs.v
theories/SegMeanProps.v
theories/RocMeanProofs.v
theories/RocMeanProps.v
