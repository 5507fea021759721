-Q theories Verif
theories/Base.v
theories/BitsModel.v
theories/BitsProofs.v
theories/StatusModel.v
theories/StatusSpec.v
theories/StatusProofs.v
theories/PropertiesStatus.v
theories/ArrayModel.v
theories/ArraySpec.v
theories/ArrayProofs.v
theories/FillModel.v
theories/FillSpec.v
theories/LayerModel.v
theories/FillProofs.v
theories/PropertiesArray.v
theories/TimeModel.v
theories/TimeSpec.v
theories/TimeProofs.v
theories/PropertiesTime.v
theories/GridModel.v
theories/GridSpec.v
theories/GridProofs.v
theories/PropertiesGrid.v
theories/ImageModel.v
theories/ImageSpec.v
theories/ImageProofs.v
theories/ClassifyModel.v
theories/ClassifySpec.v
theories/ClassifyProofs.v
theories/InsectProofs.v
theories/FallingProofs.v
theories/PropertiesImage.v
theories/LwcModel.v
theories/LwcSpec.v
theories/LwcProofs.v
theories/PropertiesLwc.v
theories/OutputModel.v
theories/OutputSpec.v
theories/OutputProofs.v
theories/ConcatModel.v
theories/ConcatSpec.v
theories/ConcatProofs.v
theories/PropertiesOutput.v
theories/InstrumentModel.v
theories/InstrumentSpec.v
theories/InstrumentProofs.v
theories/PropertiesInstrument.v
theories/SiteModel.v
theories/SiteSpec.v
theories/SiteProofs.v
theories/PropertiesSite.v
theories/DrizzleModel.v
theories/DrizzleSpec.v
theories/DrizzleProofs.v
theories/PropertiesDrizzle.v
theories/ReaderModel.v
theories/ReaderSpec.v
theories/ReaderProofs.v
theories/PropertiesReader.v
theories/StationModel.v
theories/StationSpec.v
theories/StationProofs.v
theories/PropertiesStation.v
theories/TelegramModel.v
theories/TelegramSpec.v
theories/TelegramProofs.v
theories/TelegramFileProofs.v
theories/TelegramDayProofs.v
theories/PropertiesTelegram.v
theories/DropletModel.v
theories/DropletSpec.v
theories/DropletProofs.v
theories/PropertiesLiquid.v
theories/MeltModel.v
theories/MeltSpec.v
theories/MeltProofs.v
theories/MeltImageProofs.v
theories/FreezeProofs.v
theories/PropertiesMelt.v
theories/InsectModel.v
theories/InsectSpec.v
theories/InsectProbProofs.v
theories/PropertiesInsect.v
theories/RadarModel.v
theories/RadarSpec.v
theories/RadarProofs.v
theories/RadarScreenProofs.v
theories/WeatherRadarProofs.v
theories/PropertiesRadar.v
theories/CeiloModel.v
theories/CeiloSpec.v
theories/CeiloProofs.v
theories/PropertiesCeilo.v
theories/RadiometricsModel.v
theories/RadiometricsSpec.v
theories/RadiometricsProofs.v
theories/MpProofs.v
theories/WvrProofs.v
theories/RadiometricsFilesProofs.v
theories/PropertiesRadiometrics.v
theories/CleanModel.v
theories/CleanSpec.v
theories/CleanProofs.v
theories/PropertiesClean.v
theories/SourceModel.v
theories/SourceSpec.v
theories/SourceProofs.v
theories/PropertiesSource.v
theories/NwpModel.v
theories/NwpSpec.v
theories/NwpProofs.v
theories/PropertiesNwp.v
theories/RpgModel.v
theories/RpgSpec.v
theories/RpgProofs.v
theories/PropertiesRpg.v
theories/HatproModel.v
theories/HatproSpec.v
theories/HatproProofs.v
theories/PropertiesHatpro.v
theories/EpsilonModel.v
theories/EpsilonSpec.v
theories/EpsilonProofs.v
theories/PropertiesEpsilon.v
theories/NcRadarModel.v
theories/NcRadarSpec.v
theories/NcRadarProofs.v
theories/PropertiesNcRadar.v
theories/LidarModel.v
theories/LidarSpec.v
theories/LidarProofs.v
theories/PropertiesLidar.v
theories/PollyModel.v
theories/PollySpec.v
theories/PollyProofs.v
theories/PropertiesPolly.v
theories/RetrievalModel.v
theories/RetrievalSpec.v
theories/RetrievalProofs.v
theories/PropertiesRetrieval.v
theories/DrizzleRetrievalModel.v
theories/DrizzleRetrievalSpec.v
theories/DrizzleRetrievalProofs.v
theories/PropertiesDrizzleRetrieval.v
theories/PlotModel.v
theories/PlotSpec.v
theories/PlotProofs.v
theories/PropertiesPlot.v
theories/StatModel.v
theories/StatSpec.v
theories/StatProofs.v
theories/PropertiesStat.v
theories/CliModel.v
theories/CliSpec.v
theories/CliProofs.v
theories/PropertiesCli.v
theories/WsModel.v
theories/WsSpec.v
theories/WsProofs.v
theories/PropertiesWs.v
theories/GaugeModel.v
theories/GaugeSpec.v
theories/GaugeProofs.v
theories/PropertiesGauge.v
theories/AdvModel.v
theories/AdvSpec.v
theories/AdvProofs.v
theories/PropertiesAdv.v
theories/ThiesModel.v
theories/ThiesSpec.v
theories/ThiesProofs.v
theories/PropertiesThies.v
theories/DownModel.v
theories/DownSpec.v
theories/DownProofs.v
theories/PropertiesDown.v
theories/RadErrModel.v
theories/RadErrSpec.v
theories/RadErrProofs.v
theories/PropertiesRadErr.v
theories/FigModel.v
theories/FigSpec.v
theories/FigProofs.v
theories/PropertiesFig.v
theories/OriginModel.v
theories/OriginSpec.v
theories/OriginProofs.v
theories/PropertiesOrigin.v
theories/FolderModel.v
theories/FolderSpec.v
theories/FolderProofs.v
theories/PropertiesFolder.v
theories/HeadModel.v
theories/HeadSpec.v
theories/HeadProofs.v
theories/PropertiesHead.v
theories/AxisModel.v
theories/AxisSpec.v
theories/PropertiesAxis.v
theories/TidyModel.v
theories/TidySpec.v
theories/PropertiesTidy.v
theories/CaptionModel.v
theories/CaptionSpec.v
theories/PropertiesCaption.v
theories/PanelModel.v
theories/PanelSpec.v
theories/PropertiesPanel.v
theories/ExtentModel.v
theories/ExtentSpec.v
theories/PropertiesExtent.v
