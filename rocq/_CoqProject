-Q theories Verif
theories/Base.v
theories/TimeFrameModel.v
theories/TimeFrameSpec.v
theories/TimeFrameProofs.v
theories/PropsTimeFrame.v
theories/SortLib.v
theories/ResultsModel.v
theories/ResultsSpec.v
theories/ResultsProofs.v
theories/DropoutProofs.v
theories/PropsResults.v
theories/StoreModel.v
theories/StoreSpec.v
theories/StoreProofs.v
theories/StoreProofs2.v
theories/PropsStore.v
theories/GoodSectionsModel.v
theories/GoodSectionsSpec.v
theories/GoodSectionsProofs.v
theories/GoodSectionsProofs2.v
theories/GoodSectionsProofs3.v
theories/PropsGoodSections.v
theories/LoadFrames.v
theories/EnergyModel.v
theories/EnergySpec.v
theories/EnergyProofs.v
theories/EnergyProofs2.v
theories/PropsEnergy.v
theories/PipelineModel.v
theories/PipelineSpec.v
theories/PipelineProofs.v
theories/PropsPipeline.v
theories/NearestModel.v
theories/NearestSpec.v
theories/NearestProofs.v
theories/PropsNearest.v
theories/HistogramModel.v
theories/HistogramSpec.v
theories/HistogramProofs.v
theories/HistogramProofs2.v
theories/PropsHistogram.v
theories/ApiModel.v
theories/ApiSpec.v
theories/ApiProofs.v
theories/PropsApi.v
theories/KeyModel.v
theories/KeySpec.v
theories/KeyProofs.v
theories/PropsKey.v
theories/ActivationsModel.v
theories/ActivationsSpec.v
theories/ActivationsProofs.v
theories/PropsActivations.v
theories/HartModel.v
theories/HartSpec.v
theories/HartProofs.v
theories/HartAssignProofs.v
theories/PropsHart.v
theories/SteadyModel.v
theories/SteadySpec.v
theories/SteadyProofs.v
theories/SteadyCor.v
theories/PropsSteady.v
theories/FhmmModel.v
theories/FhmmSpec.v
theories/FhmmProofs.v
theories/FhmmSortProofs.v
theories/FhmmFitProofs.v
theories/PropsFhmm.v
theories/ColumnsModel.v
theories/ColumnsSpec.v
theories/ColumnsProofs.v
theories/PropsColumns.v
theories/MatchModel.v
theories/MatchSpec.v
theories/MatchProofs.v
theories/PropsMatch.v
theories/GroupModel.v
theories/GroupSpec.v
theories/GroupProofs.v
theories/PropsGroup.v
theories/SplitModel.v
theories/SplitSpec.v
theories/SplitProofs.v
theories/PropsSplit.v
theories/TopModel.v
theories/TopSpec.v
theories/TopProofs.v
theories/PropsTop.v
theories/CorrModel.v
theories/CorrSpec.v
theories/CorrProofs.v
theories/PropsCorr.v
theories/ResampleModel.v
theories/MetricsModel.v
theories/MetricsSpec.v
theories/MetricsProofs.v
theories/MetricsProofs2.v
theories/MetricsProofs3.v
theories/ResampleProofs.v
theories/PropsMetrics.v
theories/FillSpec.v
theories/FillProofs.v
theories/PropsFill.v
theories/GLoadModel.v
theories/GLoadSpec.v
theories/GLoadProofs.v
theories/GLoadProofs2.v
theories/PropsGLoad.v
theories/CacheModel.v
theories/CacheSpec.v
theories/CacheProofs.v
theories/CacheProofs2.v
theories/CacheProofs3.v
theories/PropsCache.v
theories/ImportModel.v
theories/ImportSpec.v
theories/ImportProofs.v
theories/ImportProofs2.v
theories/PropsImport.v
theories/GStatsModel.v
theories/GStatsSpec.v
theories/GStatsProofs.v
theories/GStatsProofs2.v
theories/PropsGStats.v
theories/DfModel.v
theories/DfSpec.v
theories/DfProofs.v
theories/PropsDf.v
theories/WiringModel.v
theories/WiringSpec.v
theories/WiringProofs.v
theories/WiringProofs2.v
theories/PropsWiring.v
theories/ByModel.v
theories/BySpec.v
theories/ByProofs.v
theories/PropsBy.v
theories/ConvModel.v
theories/ConvSpec.v
theories/ConvProofs.v
theories/ConvProofs2.v
theories/ConvProofs3.v
theories/ConvProofs4.v
theories/PropsConv.v
theories/ExpModel.v
theories/ExpSpec.v
theories/ExpProofs.v
theories/ExpProofs2.v
theories/PropsExp.v
theories/SwitchModel.v
theories/SwitchSpec.v
theories/SwitchProofs.v
theories/PropsSwitch.v
theories/OnModel.v
theories/OnSpec.v
theories/OnProofs.v
theories/PropsOn.v
theories/ScriptModel.v
theories/ScriptSpec.v
theories/ScriptProofs.v
theories/PropsScript.v
theories/ItemModel.v
theories/ItemSpec.v
theories/ItemProofs.v
theories/ItemProofs2.v
theories/PropsItem.v
theories/ClusterModel.v
theories/ClusterSpec.v
theories/ClusterProofs.v
theories/PropsCluster.v
theories/SessionModel.v
theories/SessionSpec.v
theories/SessionProofs.v
theories/SessionProofs2.v
theories/PropsSession.v
theories/PairModel.v
theories/PairSpec.v
theories/PairProofs.v
theories/PairProofs2.v
theories/PropsPair.v
theories/LcoModel.v
theories/LcoSpec.v
theories/LcoProofs.v
theories/LcoProofs2.v
theories/PropsLco.v
theories/OpenModel.v
theories/OpenSpec.v
theories/OpenProofs.v
theories/PropsOpen.v
theories/HartRunModel.v
theories/HartRunSpec.v
theories/HartRunProofs.v
theories/HartRunProofs2.v
theories/PropsHartRun.v
theories/RawModel.v
theories/RawSpec.v
theories/RawProofs.v
theories/RawProofs2.v
theories/PropsRaw.v
theories/AvgModel.v
theories/AvgSpec.v
theories/AvgProofs.v
theories/PropsAvg.v
theories/PrepModel.v
theories/PrepSpec.v
theories/PrepProofs.v
theories/PrepProofs2.v
theories/PrepProofs3.v
theories/PrepProofs4.v
theories/PropsPrep.v
theories/DataportModel.v
theories/DataportSpec.v
theories/DataportProofs.v
theories/DataportProofs2.v
theories/DataportProofs3.v
theories/DataportProofs4.v
theories/PropsDataport.v
theories/TrialModel.v
theories/TrialSpec.v
theories/TrialProofs.v
theories/PropsTrial.v
theories/PersistModel.v
theories/PersistSpec.v
theories/PersistProofs.v
theories/PropsPersist.v
theories/HesModel.v
theories/HesSpec.v
theories/HesProofs.v
theories/PropsHes.v
theories/DeviceModel.v
theories/DeviceSpec.v
theories/DeviceProofs.v
theories/PropsDevice.v
theories/FormatsModel.v
theories/FormatsSpec.v
theories/FormatsProofs.v
theories/PropsFormats.v
theories/WholeModel.v
theories/WholeSpec.v
theories/WholeProofs.v
theories/PropsWhole.v
theories/GapsModel.v
theories/GapsSpec.v
theories/GapsProofs.v
theories/GapsProofs2.v
theories/GapsProofs3.v
theories/PropsGaps.v
theories/ShareModel.v
theories/ShareSpec.v
theories/ShareProofs.v
theories/ShareProofs2.v
theories/PropsShare.v
theories/TableModel.v
theories/TableSpec.v
theories/TableProofs.v
theories/TableProofs2.v
theories/PropsTable.v
theories/PathModel.v
theories/PathSpec.v
theories/PathProofs.v
theories/PropsPath.v
theories/WideModel.v
theories/WideSpec.v
theories/WideProofs.v
theories/PropsWide.v
theories/RoundModel.v
theories/RoundSpec.v
theories/RoundFormat.v
theories/RoundProofs.v
theories/RoundProofs2.v
theories/RoundDouble.v
theories/RoundProofs3.v
theories/PropsRound.v
theories/RemoveModel.v
theories/RemoveSpec.v
theories/RemoveProofs.v
theories/RemoveProofs2.v
theories/RemoveProofs3.v
theories/PropsRemove.v
theories/EcoModel.v
theories/EcoSpec.v
theories/EcoProofs.v
theories/EcoProofs2.v
theories/EcoProofs3.v
theories/PropsEco.v
theories/LfhModel.v
theories/LfhSpec.v
theories/LfhProofs.v
theories/LfhProofs2.v
theories/LfhProofs3.v
theories/LfhProofs4.v
theories/PropsLfh.v
theories/AssignModel.v
theories/AssignSpec.v
theories/AssignProofs.v
theories/AssignProofs2.v
theories/AssignProofs3.v
theories/PropsAssign.v
theories/IdealModel.v
theories/IdealSpec.v
theories/IdealProofs.v
theories/IdealProofs2.v
theories/IdealProofs3.v
theories/PropsIdeal.v
theories/LabelModel.v
theories/LabelSpec.v
theories/LabelProofs.v
theories/PropsLabel.v
theories/DescribeModel.v
theories/DescribeSpec.v
theories/DescribeProofs.v
theories/DescribeProofs2.v
theories/DescribeProofs3.v
theories/PropsDescribe.v
theories/GoodCacheModel.v
theories/GoodCacheSpec.v
theories/GoodCacheProofs.v
theories/GoodCacheProofs2.v
theories/GoodCacheProofs3.v
theories/PropsGoodCache.v
theories/GrowModel.v
theories/GrowSpec.v
theories/GrowProofs.v
theories/PropsGrow.v
theories/SmartModel.v
theories/SmartSpec.v
theories/SmartProofs.v
theories/SmartProofs2.v
theories/PropsSmart.v
theories/RmseModel.v
theories/RmseSpec.v
theories/RmseProofs.v
theories/RmseProofs2.v
theories/RmseProofs3.v
theories/PropsRmse.v
theories/PickleModel.v
theories/PickleSpec.v
theories/PickleProofs.v
theories/PickleProofs2.v
theories/PickleExample.v
theories/PropsPickle.v
theories/LocalModel.v
theories/LocalSpec.v
theories/LocalProofs.v
theories/PropsLocal.v
theories/DownloadModel.v
theories/DownloadSpec.v
theories/DownloadProofs.v
theories/DownloadProofs2.v
theories/DownloadProofs3.v
theories/DownloadProofs4.v
theories/DownloadProofs5.v
theories/DownloadProofs6.v
theories/PropsDownload.v
theories/ChainModel.v
theories/ChainSpec.v
theories/ChainProofs.v
theories/ChainProofs2.v
theories/ChainProofs3.v
theories/PropsChain.v
theories/SelectModel.v
theories/SelectSpec.v
theories/SelectProofs.v
theories/SelectProofs2.v
theories/SelectProofs3.v
theories/PropsSelect.v
theories/ClearModel.v
theories/ClearSpec.v
theories/ClearProofs.v
theories/ClearProofs2.v
theories/PropsClear.v
theories/HouseModel.v
theories/HouseSpec.v
theories/HouseProofs.v
theories/HouseProofs2.v
theories/HouseProofs3.v
theories/HouseProofs4.v
theories/PropsHouse.v
theories/HtmlModel.v
theories/HtmlSpec.v
theories/HtmlProofs.v
theories/HtmlProofs2.v
theories/PropsHtml.v
theories/LiveModel.v
theories/LiveSpec.v
theories/LiveProofs.v
theories/PropsLive.v
theories/GreendModel.v
theories/GreendSpec.v
theories/GreendProofs.v
theories/PropsGreend.v
theories/GHouseModel.v
theories/GHouseSpec.v
theories/GHouseProofs.v
theories/PropsGHouse.v
theories/CombedModel.v
theories/CombedSpec.v
theories/CombedProofs.v
theories/PropsCombed.v
theories/IaweModel.v
theories/IaweSpec.v
theories/IaweProofs.v
theories/PropsIawe.v
