-Q theories Verif
theories/Base.v
theories/Dict.v
theories/TopologyModel.v
theories/TopologySpec.v
theories/TopologyProofs.v
theories/TopologyLemmas.v
theories/TopologyQueryProofs.v
theories/TopologyProps.v
theories/StatusModel.v
theories/StatusProofs.v
theories/StatusProps.v
theories/GraphModel.v
theories/GraphSpec.v
theories/GraphProofs.v
theories/GraphProps.v
theories/GeoModel.v
theories/GeoSpec.v
theories/GeoProofs.v
theories/GeoProps.v
theories/RfModel.v
theories/RfSpec.v
theories/QLib.v
theories/RfProofs.v
theories/RfProps.v
theories/PruneModel.v
theories/PruneSpec.v
theories/PruneProofs.v
theories/PruneProps.v
theories/SetupModel.v
theories/IlpModel.v
theories/IlpSpec.v
theories/MonadLib.v
theories/SetupProofs.v
theories/IlpLemmas.v
theories/IlpProofs.v
theories/IlpExamples.v
theories/IlpProps.v
theories/ExtractModel.v
theories/ExtractSpec.v
theories/ExtractProofs.v
theories/ExtractExamples.v
theories/ExtractProps.v
theories/FlowOptModel.v
theories/FlowOptProofs.v
theories/FlowOptSpec.v
theories/FlowOptExamples.v
theories/FlowOptProps.v
theories/LosRangeModel.v
theories/LosRangeSpec.v
theories/LosRangeProofs.v
theories/LosRangeProps.v
theories/LosBatchModel.v
theories/LosBatchSpec.v
theories/LosBatchProofs.v
theories/LosBatchProps.v
theories/LosPickModel.v
theories/LosPickSpec.v
theories/LosPickProofs.v
theories/LosConnProofs.v
theories/LosPickExamples.v
theories/LosPickProps.v
theories/LosTopoModel.v
theories/LosTopoSpec.v
theories/LosTopoProofs.v
theories/LosTopoExamples.v
theories/LosTopoProps.v
theories/ElevModel.v
theories/ElevSpec.v
theories/ElevProofs.v
theories/ElevExamples.v
theories/ElevProps.v
theories/LosGeomModel.v
theories/LosGeomSpec.v
theories/LosGeomProofs.v
theories/LosZoneProofs.v
theories/LosGeomExamples.v
theories/LosGeomProps.v
theories/SecLinkModel.v
theories/SecLinkSpec.v
theories/SecLinkProofs.v
theories/SecLinkExamples.v
theories/SecLinkProps.v
theories/SecPlaceModel.v
theories/SecPlaceSpec.v
theories/SecDpProofs.v
theories/SecPlaceProofs.v
theories/SecPlaceMainProofs.v
theories/SecPlaceFinalProofs.v
theories/SecEquidModel.v
theories/SecEquidProofs.v
theories/SecPlaceExamples.v
theories/SecPlaceProps.v
theories/InputModel.v
theories/InputSpec.v
theories/InputProofs.v
theories/InputExamples.v
theories/InputProps.v
theories/ApplyModel.v
theories/ApplySpec.v
theories/ApplyProofs.v
theories/ApplyMainProofs.v
theories/ApplyExamples.v
theories/ApplyProps.v
theories/SumLib.v
theories/OpsModel.v
theories/OpsSpec.v
theories/OpsProofs.v
theories/OpsPopProofs.v
theories/OpsColocProofs.v
theories/OpsExamples.v
theories/OpsProps.v
theories/DeployModel.v
theories/DeploySpec.v
theories/DeployProofs.v
theories/DeployLimitProofs.v
theories/DeployExamples.v
theories/DeployProps.v
theories/CountModel.v
theories/CountSpec.v
theories/CountProofs.v
theories/CountMainProofs.v
theories/CountFinalProofs.v
theories/CountExamples.v
theories/CountProps.v
theories/DemandModel.v
theories/DemandSpec.v
theories/DemandProofs.v
theories/DemandMainProofs.v
theories/DemandFinalProofs.v
theories/DemandExamples.v
theories/DemandProps.v
theories/InterfModel.v
theories/InterfSpec.v
theories/InterfProofs.v
theories/InterfMainProofs.v
theories/InterfFinalProofs.v
theories/InterfExamples.v
theories/InterfProps.v
theories/NxModel.v
theories/NxSpec.v
theories/NxProofs.v
theories/NxFailProofs.v
theories/NxBuildProofs.v
theories/NxPathProofs.v
theories/NxRouteProofs.v
theories/NxBfsProofs.v
theories/NxDisruptProofs.v
theories/NxFinalProofs.v
theories/NxExamples.v
theories/NxProps.v
theories/NxCostProofs.v
theories/AdvModel.v
theories/AdvSpec.v
theories/AdvProofs.v
theories/AdvExamples.v
theories/AdvProps.v
theories/AvailModel.v
theories/AvailSpec.v
theories/AvailProofs.v
theories/AvailSimProofs.v
theories/AvailFinalProofs.v
theories/AvailTopoProofs.v
theories/AvailExamples.v
theories/AvailProps.v
theories/ConfModel.v
theories/ConfSpec.v
theories/ConfProofs.v
theories/ConfLosProofs.v
theories/ConfOptProofs.v
theories/ConfFileProofs.v
theories/ConfRadioProofs.v
theories/ConfTripProofs.v
theories/ConfTypoProofs.v
theories/RfLossModel.v
theories/RfLossProofs.v
theories/RfRainProofs.v
theories/RfWeatherProofs.v
theories/RfLossSpec.v
theories/RfFormulaProofs.v
theories/RfLossProps.v
theories/ConfEqProofs.v
theories/ConfExamples.v
theories/ConfFinalProofs.v
theories/ConfProps.v
theories/KmlModel.v
theories/KmlSpec.v
theories/KmlTextProofs.v
theories/KmlMarkProofs.v
theories/KmlReadProofs.v
theories/KmlOrderProofs.v
theories/KmlLayoutProofs.v
theories/KmlExamples.v
theories/KmlProps.v
theories/ConfEnumProofs.v
theories/LinkMapModel.v
theories/LinkMapSpec.v
theories/LinkMapProofs.v
theories/LinkMapFileProofs.v
theories/LinkKmlModel.v
theories/LinkMapFinalProofs.v
theories/LinkMapExamples.v
theories/LinkMapProps.v
theories/ValidModel.v
theories/ValidSpec.v
theories/ValidProofs.v
theories/ValidExamples.v
theories/ValidProps.v
theories/TpcModel.v
theories/TpcSpec.v
theories/TpcProofs.v
theories/TpcFinalProofs.v
theories/TpcExamples.v
theories/TpcProps.v
theories/ReportModel.v
theories/ReportSpec.v
theories/ReportProofs.v
theories/ReportFlowProofs.v
theories/ReportExamples.v
theories/ReportProps.v
theories/MetricSpec.v
theories/MetricProofs.v
theories/MetricMainProofs.v
theories/MetricExamples.v
theories/MetricProps.v
theories/SiteSecModel.v
theories/SiteSecSpec.v
theories/SiteSecProofs.v
theories/SiteSecGeoProofs.v
theories/SiteSecFanProofs.v
theories/SiteSecMainProofs.v
theories/SiteSecMeanProofs.v
theories/SiteSecExamples.v
theories/SiteSecProps.v
theories/RedunModel.v
theories/RedunSpec.v
theories/FlowCut.v
theories/RedunProofs.v
theories/RedunReadProofs.v
theories/RedunMainProofs.v
theories/RedunKeepProofs.v
theories/RedunSolveProofs.v
theories/RedunTopProofs.v
theories/RedunExamples.v
theories/RedunProps.v
theories/PopModel.v
theories/PopSpec.v
theories/PopProofs.v
theories/PopMainProofs.v
theories/PopExamples.v
theories/PopProps.v
theories/DupModel.v
theories/DupSpec.v
theories/DupProofs.v
theories/DupLinkProofs.v
theories/DupMainProofs.v
theories/DupReturnProofs.v
theories/DupExamples.v
theories/DupProps.v
theories/SolveSpec.v
theories/SolveProofs.v
theories/SolveMainProofs.v
theories/SolveExamples.v
theories/SolveProps.v
theories/FitSpec.v
theories/FitProofs.v
theories/FitMainProofs.v
theories/FitAnswerProofs.v
theories/FitExamples.v
theories/FitProps.v
theories/ChanModel.v
theories/ChanSpec.v
theories/ChanProofs.v
theories/ChanExamples.v
theories/ChanProps.v
theories/SinrModel.v
theories/SinrSpec.v
theories/SinrProofs.v
theories/SinrExamples.v
theories/SinrProps.v
theories/TuneModel.v
theories/TuneSpec.v
theories/TuneProofs.v
theories/TuneExamples.v
theories/TuneProps.v
theories/TuneReadProofs.v
theories/OneProofs.v
theories/OneExamples.v
theories/OneProps.v
