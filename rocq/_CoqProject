-Q theories Verif
theories/Base.v
theories/Geo.v
theories/Graph.v
theories/Cell.v
theories/Loaders.v
theories/Builder.v
theories/Spec.v
theories/QLib.v
theories/CaseProofs.v
theories/SplitGeo.v
theories/Dict.v
theories/Rep.v
theories/SplitCore.v
theories/Stage.v
theories/BuilderSplit.v
theories/MeshSpec.v
theories/Invariant.v
theories/Grid.v
theories/Build.v
theories/Consequences.v
theories/Reach.v
theories/MeshFacts.v
theories/DataSpec.v
theories/TrimProofs.v
theories/XrProofs.v
theories/AggProofs.v
theories/FillProofs.v
theories/Adaptive.v
theories/ChainProofs.v
theories/VectorChain.v
theories/AdaptiveFacts.v
theories/Env.v
theories/EnvSpec.v
theories/EnvSplit.v
theories/EnvInv.v
theories/EnvMerge.v
theories/EnvJson.v
theories/EnvLink.v
theories/EnvQuery.v
theories/EnvHistory.v
theories/PyStr.v
theories/Wkt.v
theories/GlobeSpec.v
theories/GlobeProofs.v
theories/CrossSpec.v
theories/Cross.v
theories/CrossInv.v
theories/CrossBuild.v
theories/CrossSound.v
theories/StrLib.v
theories/WktProofs.v
theories/Dates.v
theories/DateSpec.v
theories/CalProofs.v
theories/DateProofs.v
theories/Config.v
theories/ConfigSpec.v
theories/ConfigProofs.v
theories/Params.v
theories/ParamSpec.v
theories/ParamProofs.v
theories/AddLoader.v
theories/AddProofs.v
theories/Compare.v
theories/CompareSpec.v
theories/SigProofs.v
theories/CompareProofs.v
theories/Validate.v
theories/ValidateSpec.v
theories/ValidateProofs.v
theories/Raster.v
theories/RasterSpec.v
theories/RasterProofs.v
theories/Floats.v
theories/RasterFloat.v
theories/FloatGeo.v
theories/FloatArith.v
theories/FloatSpec.v
theories/FloatProofs.v
theories/FloatMesh.v
theories/FloatMeshSpec.v
theories/FloatMeshProofs.v
theories/Lut.v
theories/LutSpec.v
theories/LutProofs.v
theories/Examples.v
theories/ExamplesData.v
theories/ExamplesEnv.v
theories/PropsMesh.v
theories/PropsAdaptive.v
theories/PropsData.v
theories/PropsEnv.v
theories/PropsBoundary.v
theories/PropsDates.v
theories/PropsCross.v
theories/PropsConfig.v
theories/PropsAdd.v
theories/PropsParams.v
theories/PropsCompare.v
theories/PropsValidate.v
theories/PropsRaster.v
theories/PropsLut.v
theories/PropsFloat.v
theories/Pipeline.v
theories/PipeSpec.v
theories/PipeProofs.v
theories/PropsPipe.v
theories/Shapes.v
theories/ShapeSpec.v
theories/ShapeProofs.v
theories/PropsShape.v
theories/Construct.v
theories/ConstructSpec.v
theories/ConstructProofs.v
theories/PropsConstruct.v
theories/Times.v
theories/TimesSpec.v
theories/TimesProofs.v
theories/PropsTimes.v
theories/Downsample.v
theories/DownSpec.v
theories/DownProofs.v
theories/PropsDown.v
theories/Names.v
theories/NamesSpec.v
theories/NamesProofs.v
theories/PropsNames.v
theories/Curl.v
theories/CurlSpec.v
theories/CurlProofs.v
theories/PropsCurl.v
theories/Files.v
theories/FilesSpec.v
theories/FilesProofs.v
theories/PropsFiles.v
theories/Import.v
theories/ImportSpec.v
theories/ImportProofs.v
theories/PropsImport.v
theories/VecAgg.v
theories/VecAggSpec.v
theories/VecAggProofs.v
theories/PropsVecAgg.v
theories/Grf.v
theories/GrfSpec.v
theories/GrfProofs.v
theories/PropsGrf.v
theories/Reproject.v
theories/ReprojectSpec.v
theories/ReprojectProofs.v
theories/PropsReproject.v
theories/LutFiles.v
theories/LutFilesSpec.v
theories/LutFilesProofs.v
theories/PropsLutFiles.v
theories/Forecast.v
theories/ForecastSpec.v
theories/ForecastProofs.v
theories/PropsForecast.v
theories/Rebuild.v
theories/RebuildSpec.v
theories/RebuildProofs.v
theories/PropsRebuild.v
theories/MergeDir.v
theories/MergeDirSpec.v
theories/MergeDirProofs.v
theories/PropsMergeDir.v
theories/Export.v
theories/ExportSpec.v
theories/ExportProofs.v
theories/PropsExport.v
theories/Colour.v
theories/PropsColour.v
theories/Sources.v
theories/SourcesSpec.v
theories/SourcesProofs.v
theories/PropsSources.v
theories/EnvGlobeSpec.v
theories/EnvGlobe.v
theories/EnvGlobeProofs.v
theories/EnvGlobeSound.v
theories/PropsEnvGlobe.v
theories/Automate.v
theories/AutomateSpec.v
theories/AutomateProofs.v
theories/PropsAutomate.v
theories/GreatCircle.v
theories/GreatCircleSpec.v
theories/PropsGreatCircle.v
theories/Waypoints.v
theories/WaypointsSpec.v
theories/PropsWaypoints.v
theories/Plot.v
theories/PlotSpec.v
theories/PlotProofs.v
theories/PropsPlot.v
theories/AutoSave.v
theories/AutoSaveSpec.v
theories/AutoSaveProofs.v
theories/PropsAutoSave.v
theories/PropsCellFile.v
theories/VecLoader.v
theories/MixSpec.v
theories/MixProofs.v
theories/PropsMix.v
theories/VecHomSpec.v
theories/VecHomProofs.v
theories/PropsVecHom.v
theories/VecSources.v
theories/VecSourcesSpec.v
theories/VecSourcesProofs.v
theories/PropsVecSources.v
theories/StepInv.v
theories/CrossPipeSpec.v
theories/CrossData.v
theories/CrossAgg.v
theories/CrossFile.v
theories/CrossPipe.v
theories/PropsCrossPipe.v
theories/LutSources.v
theories/TableSpec.v
theories/TableChain.v
theories/TableProofs.v
theories/TableFiles.v
theories/PropsTable.v
theories/AllSources.v
theories/WholeSpec.v
theories/WholeProofs.v
theories/PropsWhole.v
theories/MeshLookup.v
theories/PropsLookup.v
theories/ShapeSources.v
theories/ShapeSourcesSpec.v
theories/ShapeSourcesProofs.v
theories/PropsShapeSources.v
theories/Cli.v
theories/PropsCli.v
theories/GrfSources.v
theories/GrfSourcesSpec.v
theories/GrfSourcesProofs.v
theories/PropsGrfSources.v
theories/IceSources.v
theories/IceSourcesSpec.v
theories/IceSourcesProofs.v
theories/PropsIceSources.v
theories/WindSources.v
theories/WindSourcesSpec.v
theories/WindSourcesProofs.v
theories/PropsWindSources.v
theories/SampleSpec.v
theories/SampleProofs.v
theories/PropsSample.v
theories/WaveSources.v
theories/WaveSourcesSpec.v
theories/WaveSourcesProofs.v
theories/PropsWaveSources.v
theories/VecSampleSpec.v
theories/VecSampleProofs.v
theories/PropsVecSample.v
theories/WaveSampleSpec.v
theories/WaveSampleProofs.v
theories/PropsWaveSample.v
theories/MoreSampleSpec.v
theories/MoreSampleProofs.v
theories/PropsMoreSample.v
theories/AggSpec.v
theories/AggExact.v
theories/PropsAggExact.v
