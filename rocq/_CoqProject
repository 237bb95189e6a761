-Q theories Verif
theories/Py.v
theories/Nd.v
theories/Numpy.v
theories/Point.v
theories/Bin.v
theories/Algorithms.v
theories/Tile.v
theories/TileFail.v
theories/Time.v
theories/Meta.v
theories/Disk.v
theories/Names.v
theories/FloatExtents.v
theories/Grid.v
theories/GridRun.v
theories/GridQuery.v
theories/GridOps.v
theories/Export.v
theories/Store.v
theories/Spec.v
theories/TileExec.v
theories/GridExec.v
theories/StoreExec.v
theories/Samples.v
theories/GridSamples.v
theories/PyFacts.v
theories/NdFacts.v
theories/NumpyFacts.v
theories/AlgFacts.v
theories/BinFacts.v
theories/MiscFacts.v
theories/TileFacts.v
theories/TileGridFacts.v
theories/TileSpecFacts.v
theories/TileRunFacts.v
theories/TileHistFacts.v
theories/ShoalFacts.v
theories/TilePropFacts.v
theories/TileQueryFacts.v
theories/TileUnknownFacts.v
theories/GridBaseFacts.v
theories/GridPlaceFacts.v
theories/GridInvFacts.v
theories/GridRootFacts.v
theories/GridEvolveFacts.v
theories/GridSrFacts.v
theories/GridPropFacts.v
theories/GridHistFacts.v
theories/GridRunFacts.v
theories/GridCleanFacts.v
theories/GridUpdateFacts.v
theories/GridDensityFacts.v
theories/GridFlagFacts.v
theories/GridLayerFacts.v
theories/GridReadFacts.v
theories/GridAnswerFacts.v
theories/WholeSpec.v
theories/SameSpec.v
theories/GridWholeFacts.v
theories/GridContainerFacts.v
theories/GridMultiVrFacts.v
theories/GridValueFacts.v
theories/GridSameFacts.v
theories/GridTrimFacts.v
theories/GridMultiFacts.v
theories/GridChunkFacts.v
theories/GridRasterFacts.v
theories/GridExportFacts.v
theories/TimeFacts.v
theories/MetaFacts.v
theories/NameFacts.v
theories/GridCountFacts.v
theories/GridCsvFacts.v
theories/FsFacts.v
theories/TileStoreFacts.v
theories/CrashFacts.v
theories/GridStoreFacts.v
theories/GridLoadFacts.v
theories/GridReachFacts.v
theories/GridVrFacts.v
theories/Views.v
theories/Convenience.v
theories/FolderSpec.v
theories/FolderFacts.v
theories/ConvenienceFacts.v
theories/ViewsSpec.v
theories/ViewsFacts.v
theories/NamesFacts.v
theories/FloatFacts.v
theories/FloatLayers.v
theories/FloatLayerFacts.v
theories/Properties_Bin.v
theories/Properties_Tile.v
theories/Properties_Grid.v
theories/Properties_GridRun.v
theories/Properties_GridState.v
theories/Properties_GridQuery.v
theories/Properties_GridExport.v
theories/Properties_Meta.v
theories/Properties_GridCount.v
theories/Properties_Csv.v
theories/Properties_Store.v
theories/Properties_GridStore.v
theories/Properties_Convenience.v
theories/Properties_Names.v
theories/Properties_Float.v
theories/Properties_FloatLayers.v
theories/Properties_Views.v
theories/Properties_Whole.v
theories/Properties_Same.v
theories/TileSoundFacts.v
theories/GridRecoverFacts.v
theories/BorderSpec.v
theories/GridBorderFacts.v
theories/Properties_Recover.v
theories/Properties_Border.v
theories/GridUnknownFacts.v
theories/Properties_Unknown.v
theories/AutoSpec.v
theories/CubeSpec.v
theories/KeepSpec.v
theories/GridAutoFacts.v
theories/Properties_Auto.v
theories/GridCubeFacts.v
theories/Properties_Cube.v
theories/GridKeepFacts.v
theories/Properties_Keep.v
theories/ExportNames.v
theories/FilesSpec.v
theories/ExportNameFacts.v
theories/Properties_Files.v
theories/SessionSpec.v
theories/GridSessionFacts.v
theories/GridOwnFacts.v
theories/GridVrSessionFacts.v
theories/Properties_Sessions.v
theories/Properties_VrSessions.v
theories/Properties_OwnFolder.v
theories/BagXml.v
theories/XmlSpec.v
theories/BagXmlFacts.v
theories/Properties_BagXml.v
theories/VrefFacts.v
theories/Properties_Vref.v
theories/SqmFacts.v
theories/Properties_Sqm.v
theories/CsvSpec.v
theories/CsvLineFacts.v
theories/Properties_CsvLines.v
theories/CompareSpec.v
theories/CompareFacts.v
theories/CoarseFacts.v
theories/Properties_Compare.v
theories/DensityRezFacts.v
theories/Properties_DensityRez.v
theories/RasterNameFacts.v
theories/Properties_RasterNames.v
theories/CsvPointSpec.v
theories/CsvPointFacts.v
theories/Properties_CsvPoints.v
theories/LayerNameSpec.v
theories/LayerNameFacts.v
theories/Properties_LayerNames.v
theories/RasterPointSpec.v
theories/RasterPointFacts.v
theories/Properties_RasterPoints.v
theories/RasterApartFacts.v
theories/Properties_RasterApart.v
theories/MergeSpec.v
theories/MergeFacts.v
theories/Properties_Merge.v
theories/LoadAnswerSpec.v
theories/LoadAnswerFacts.v
theories/Properties_LoadAnswers.v
theories/LoadExportFacts.v
theories/Properties_LoadExports.v
theories/RemoveSpec.v
theories/RemoveFacts.v
theories/Properties_Remove.v
theories/EnvelopeSpec.v
theories/EnvelopeFacts.v
theories/Properties_Envelope.v
theories/SquaresSpec.v
theories/SquaresFacts.v
theories/Properties_Squares.v
theories/EmptySaveFacts.v
theories/Properties_EmptySave.v
theories/CoverFacts.v
theories/VrCoverFacts.v
theories/Properties_Cover.v
theories/ExtentSpec.v
theories/ExtentFacts.v
theories/Properties_Extent.v
theories/Properties_SquaresMore.v
theories/BagWkt.v
theories/BagWktFacts.v
theories/Properties_BagWkt.v
