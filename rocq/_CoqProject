-Q theories Verif
theories/Base.v
theories/F32.v
theories/F32Facts.v
theories/Grib2Model.v
theories/Grib2Spec.v
theories/BaseFacts.v
theories/Grib2Proofs.v
theories/Grib2DocProofs.v
theories/Grib2FloatProofs.v
theories/Grib2Samples.v
theories/Grib2Properties.v
theories/Grib2FloatProperties.v
theories/GeoModel.v
theories/GeoSpec.v
theories/GeoProofs.v
theories/GeoValueProofs.v
theories/GeoLookupProofs.v
theories/GeoRegridProofs.v
theories/GeoThreeProofs.v
theories/GeoProperties.v
theories/Utf8Spec.v
theories/Utf8Proofs.v
theories/NetCdfModel.v
theories/NetCdfSpec.v
theories/NetCdfProofs.v
theories/NetCdfAngleSpec.v
theories/NetCdfAngleProofs.v
theories/NetCdfProperties.v
theories/ImagingModel.v
theories/ImagingSpec.v
theories/ImagingProofs.v
theories/ImagingProperties.v
theories/Par.v
theories/ParFacts.v
theories/TileModel.v
theories/TileSpec.v
theories/TileProofs.v
theories/TileProperties.v
theories/MercatorProofs.v
theories/LibmProofs.v
theories/MercatorProperties.v
theories/PhysicsModel.v
theories/ChartModel.v
theories/ChartSpec.v
theories/ChartProofs.v
theories/WindProofs.v
theories/ChartProperties.v
theories/MetobinModel.v
theories/MetobinSpec.v
theories/MetobinProofs.v
theories/MetobinProperties.v
theories/Text.v
theories/TextFacts.v
theories/TextSpec.v
theories/TextSpecProofs.v
theories/ForecastModel.v
theories/ForecastSpec.v
theories/ForecastProofs.v
theories/ForecastProperties.v
theories/FieldSpec.v
theories/FieldProofs.v
theories/FieldProperties.v
theories/MapSpec.v
theories/MapProofs.v
theories/MapProperties.v
theories/FetchModel.v
theories/FetchSpec.v
theories/FetchProofs.v
theories/RenderProofs.v
theories/DwdModel.v
theories/DwdSpec.v
theories/DwdProofs.v
theories/DwdProperties.v
theories/SwissModel.v
theories/SwissSpec.v
theories/SwissProofs.v
theories/SwissCells.v
theories/SwissProperties.v
theories/ServiceModel.v
theories/ServiceSpec.v
theories/ServiceProofs.v
theories/ServiceProperties.v
theories/CliModel.v
theories/CliSpec.v
theories/CliProofs.v
theories/CliProperties.v
theories/PublishSpec.v
theories/PublishProofs.v
theories/PublishProperties.v
theories/SwissMapSpec.v
theories/SwissPlaceProofs.v
theories/SwissMapProofs.v
theories/SwissMapProperties.v
theories/PlaceModel.v
theories/PlaceSpec.v
theories/PlaceProofs.v
theories/PlaceProperties.v
theories/NeedSpec.v
theories/NeedProofs.v
theories/NeedProperties.v
theories/OverlapSpec.v
theories/OverlapProofs.v
theories/OverlapProperties.v
theories/NcTextModel.v
theories/NcTextSpec.v
theories/NcTextProofs.v
theories/NcTextProperties.v
theories/ArgsModel.v
theories/ArgsSpec.v
theories/ArgsProofs.v
theories/ArgsProperties.v
theories/ReqModel.v
theories/ReqSpec.v
theories/ReqProofs.v
theories/ReqProperties.v
theories/RfcModel.v
theories/RfcSpec.v
theories/RfcProofs.v
theories/RfcProperties.v
theories/JsonModel.v
theories/JsonSpec.v
theories/JsonProofs.v
theories/JsonProperties.v
theories/AllocModel.v
theories/AllocSpec.v
theories/AllocProofs.v
theories/AllocProperties.v
theories/HistorySpec.v
theories/HistoryProofs.v
theories/HistoryProperties.v
theories/AgreeSpec.v
theories/AgreeProofs.v
theories/AgreeProperties.v
theories/GeoPositionProofs.v
theories/SwissMissingProofs.v
theories/NcPanicSpec.v
theories/NcPanicProofs.v
theories/SafeSpec.v
theories/SafeProofs.v
theories/SafeProperties.v
theories/SwissSafeSpec.v
theories/SwissSafeProofs.v
theories/SwissSafeProperties.v
theories/DiskSpec.v
theories/DiskProofs.v
theories/DiskProperties.v
theories/LocalSpec.v
theories/LocalProofs.v
theories/LocalProperties.v
theories/SplitSpec.v
theories/SplitProofs.v
theories/SplitProperties.v
theories/SwissHistorySpec.v
theories/SwissHistoryProofs.v
theories/SwissHistoryProperties.v
theories/OnMapProofs.v
theories/OnMapProperties.v
theories/ConfinedSpec.v
theories/ConfinedProofs.v
theories/ConfinedProperties.v
theories/IeeeSpec.v
theories/IeeeProofs.v
theories/IeeeProperties.v
theories/EndsSpec.v
theories/EndsProofs.v
theories/EndsProperties.v
theories/ConfigModel.v
theories/ConfigSpec.v
theories/ConfigProofs.v
theories/ConfigProperties.v
theories/TripleModel.v
theories/TripleSpec.v
theories/TripleProofs.v
theories/TripleProperties.v
theories/ZoomSpec.v
theories/ZoomProofs.v
theories/ZoomProperties.v
theories/NorthSpec.v
theories/NorthProofs.v
theories/NorthProperties.v
theories/LookSpec.v
theories/LookProofs.v
theories/LookProperties.v
theories/LegendSpec.v
theories/LegendProofs.v
theories/LegendProperties.v
theories/PyramidSpec.v
theories/PyramidProofs.v
theories/PyramidProperties.v
