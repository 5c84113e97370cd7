-Q theories Verif
theories/Base/Str.v
theories/Base/Digits.v
theories/Base/Flt.v
theories/Base/QPow.v
theories/Base/FltRound.v
theories/Base/FltText.v
theories/Base/FltInt.v
theories/Base/FltArith.v
theories/Base/FltExact.v
theories/Model/Py.v
theories/Model/Records.v
theories/Model/Write.v
theories/Model/Read.v
theories/Spec/Fields.v
theories/Proofs/RecordLemmas.v
theories/Spec/Values.v
theories/Proofs/DictLemmas.v
theories/Proofs/Stability.v
theories/Spec/Layouts.v
theories/Proofs/Layouts.v
theories/Proofs/Samples.v
theories/Spec/Types.v
theories/Proofs/Types.v
theories/Spec/Rocks.v
theories/Proofs/BlockTools.v
theories/Proofs/RocksProof.v
theories/Spec/Flac.v
theories/Proofs/FlacProof.v
theories/Props/P01_Records.v
theories/Spec/Simple.v
theories/Proofs/SimpleProof.v
theories/Props/P05_Rocks.v
theories/Props/P08_Simple.v
theories/Spec/Param.v
theories/Proofs/ParamProof.v
theories/Spec/Indom.v
theories/Proofs/TwoLines.v
theories/Proofs/IndomProof.v
theories/Props/P09_Param.v
theories/Spec/Outpu.v
theories/Proofs/OutpuProof.v
theories/Props/P17_Outpu.v
theories/Spec/Labels.v
theories/Spec/Mesh.v
theories/Proofs/LabelProof.v
theories/Proofs/MeshProof.v
theories/Props/P18_Mesh.v
theories/Spec/Incon.v
theories/Proofs/WordProof.v
theories/Proofs/InconProof.v
theories/Props/P20_Incon.v
theories/Spec/Gener.v
theories/Proofs/GenerProof.v
theories/Props/P15_Gener.v
theories/Spec/File.v
theories/Proofs/FileProof.v
theories/Proofs/FileKeys.v
theories/Proofs/Ending.v
theories/Proofs/SelectProof.v
theories/Props/P22_File.v
theories/Spec/Checked.v
theories/Proofs/CheckedProof.v
theories/Props/P21_Title.v
theories/Props/P23_Select.v
theories/Props/P25_Checks.v
theories/Model/Dispatch.v
theories/Spec/Dispatch.v
theories/Proofs/DispatchProof.v
theories/Props/P29_Dispatch.v
theories/Model/Json.v
theories/Spec/Json.v
theories/Proofs/JsonProof.v
theories/Props/P24_Files.v
theories/Spec/Length.v
theories/Proofs/LengthProof.v
theories/Props/P27_Length.v
theories/Model/Output.v
theories/Spec/Output.v
theories/Proofs/ReorderProof.v
theories/Proofs/CellText.v
theories/Proofs/CsvProof.v
theories/Proofs/PetrasimProof.v
theories/Proofs/RecognizeProof.v
theories/Proofs/TecplotProof.v
theories/Spec/Listing.v
theories/Proofs/ListingProof.v
theories/Proofs/OutputSamples.v
theories/Props/P30_Output.v
theories/Model/Cli.v
theories/Spec/Cli.v
theories/Proofs/CliProof.v
theories/Props/P35_Cli.v
theories/Model/Labeler.v
theories/Spec/Labeler.v
theories/Proofs/LabelerProof.v
theories/Props/P28_Labeler.v
theories/Model/Numpy.v
theories/Spec/Order.v
theories/Proofs/NumpyProof.v
theories/Model/Mesh.v
theories/Spec/MeshCells.v
theories/Proofs/ConnectProof.v
theories/Proofs/BlocksProof.v
theories/Model/MeshOps.v
theories/Model/MeshFile.v
theories/Model/Grid.v
theories/Spec/Materials.v
theories/Proofs/MaterialProof.v
theories/Spec/Extrude.v
theories/Proofs/ExtrudeProof.v
theories/Spec/Prune.v
theories/Spec/MeshFile.v
theories/Spec/MeshBack.v
theories/Spec/Grid.v
theories/Proofs/PruneProof.v
theories/Proofs/FaceProof.v
theories/Proofs/MeshFileProof.v
theories/Proofs/GridProof.v
theories/Proofs/VoxelProof.v
theories/Props/P38_Mesh.v
theories/Props/P41_MeshOps.v
theories/Props/P44_MeshFile.v
theories/Props/P37_Grid.v
theories/Model/Geometry.v
theories/Model/TimeSeries.v
theories/Spec/Geometry.v
theories/Spec/TimeSeries.v
theories/Proofs/VolumeProof.v
theories/Proofs/GeometryProof.v
theories/Proofs/TimeSeriesProof.v
theories/Proofs/CylinderProof.v
theories/Props/P51_Geometry.v
theories/Model/Curves.v
theories/Spec/Curves.v
theories/Proofs/CurveProof.v
theories/Proofs/CapillaryProof.v
theories/Proofs/CurveClaims.v
theories/Props/P56_Curves.v
theories/Model/F3grid.v
theories/Spec/F3grid.v
theories/Proofs/F3Bytes.v
theories/Proofs/F3Order.v
theories/Proofs/F3Build.v
theories/Proofs/F3Finish.v
theories/Proofs/F3Binary.v
theories/Proofs/F3Text.v
theories/Proofs/F3Write.v
theories/Proofs/F3Groups.v
theories/Props/P47_Flac3d.v
theories/Model/Avsucd.v
theories/Model/TecMesh.v
theories/Model/Save.v
theories/Spec/Avsucd.v
theories/Spec/Ucd.v
theories/Proofs/AvsucdProof.v
theories/Proofs/UcdProof.v
theories/Props/P50_Avsucd.v
theories/Spec/TecMesh.v
theories/Spec/Save.v
theories/Proofs/TecCells.v
theories/Proofs/TecZone.v
theories/Proofs/TecMeshProof.v
theories/Props/P63_TecMesh.v
theories/Proofs/SaveProof.v
theories/Props/P64_Save.v
theories/Model/Extract.v
theories/Spec/Extract.v
theories/Proofs/ExtractProof.v
theories/Props/P66_Extract.v
theories/Model/Import.v
theories/Spec/Import.v
theories/Proofs/ImportProof.v
theories/Props/P65_Import.v
theories/Model/Conne.v
theories/Spec/Conne.v
theories/Proofs/FacesProof.v
theories/Proofs/ConneProof.v
theories/Proofs/GapProof.v
theories/Proofs/QualityProof.v
theories/Proofs/ConneSamples.v
theories/Props/P67_Faces.v
theories/Model/History.v
theories/Spec/History.v
theories/Proofs/HistoryProof.v
theories/Props/P70_History.v
theories/Model/MeshRead.v
theories/Proofs/MeshBackProof.v
theories/Props/P71_MeshBack.v
theories/Spec/InconBack.v
theories/Proofs/InconBackProof.v
theories/Props/P72_InconBack.v
theories/Model/Pyvista.v
theories/Spec/Pyvista.v
theories/Proofs/PyvistaProof.v
theories/Props/P73_Pyvista.v
theories/Model/Meshio.v
theories/Spec/Meshio.v
theories/Proofs/MeshioProof.v
theories/Props/P74_Meshio.v
theories/Model/Export.v
theories/Spec/Export.v
theories/Proofs/SortsProof.v
theories/Proofs/ExportProof.v
theories/Props/P75_Export.v
theories/Model/Session.v
theories/Spec/Session.v
theories/Proofs/SessionProof.v
theories/Props/P76_Session.v
theories/Spec/MergeBack.v
theories/Proofs/MergeBackProof.v
theories/Props/P77_MergeBack.v
theories/Spec/Restart.v
theories/Proofs/RestartProof.v
theories/Props/P78_Restart.v
theories/Spec/Again.v
theories/Spec/Rewrites.v
theories/Proofs/AgainCols.v
theories/Proofs/AgainPrep.v
theories/Proofs/AgainRocks.v
theories/Proofs/AgainBlocks.v
theories/Proofs/AgainSimple.v
theories/Proofs/AgainParam.v
theories/Proofs/AgainMesh.v
theories/Proofs/AgainGener.v
theories/Proofs/AgainOutpu.v
theories/Proofs/AgainFile.v
theories/Props/P79_Again.v
theories/Model/ExportPlain.v
theories/Spec/ExportPlain.v
theories/Proofs/ExportPlainProof.v
theories/Proofs/ExportVoxels.v
theories/Proofs/ExportRefuse.v
theories/Props/P80_ExportAlone.v
theories/Spec/ResultFile.v
theories/Proofs/ResultFileProof.v
theories/Proofs/ResultShape.v
theories/Props/P81_ResultFile.v
theories/Spec/TecFile.v
theories/Proofs/TecFileProof.v
theories/Proofs/TecFileRead.v
theories/Props/P82_TecFile.v
theories/Spec/UcdFile.v
theories/Proofs/UcdFileProof.v
theories/Props/P83_UcdFile.v
theories/Spec/F3File.v
theories/Proofs/F3FileProof.v
theories/Proofs/F3FileRead.v
theories/Proofs/F3FileBinary.v
theories/Props/P84_F3File.v
theories/Spec/BlockOrder.v
theories/Spec/Remarks.v
theories/Proofs/OrderProof.v
theories/Props/P85_BlockOrder.v
theories/Spec/Padding.v
theories/Proofs/PaddingProof.v
theories/Props/P86_Padding.v
theories/Props/P87_Remarks.v
theories/Spec/DictOrder.v
theories/Spec/Known.v
theories/Proofs/KnownProof.v
theories/Proofs/DictOrderProof.v
theories/Props/P88_DictOrder.v
theories/Props/P89_Known.v
theories/Spec/Kinds.v
theories/Proofs/KindsProof.v
theories/Props/P90_Kinds.v
theories/Spec/Defaults.v
theories/Proofs/DefaultsProof.v
theories/Props/P91_Defaults.v
theories/Spec/Inherited.v
theories/Proofs/InheritedProof.v
theories/Props/P92_Inherited.v
theories/Spec/TableOrder.v
theories/Proofs/TableOrderProof.v
theories/Props/P93_TableOrder.v
theories/Spec/RockOrder.v
theories/Proofs/RockOrderProof.v
theories/Props/P94_RockOrder.v
theories/Spec/OwnBlock.v
theories/Proofs/OwnBlockProof.v
theories/Proofs/OwnBlockCex.v
theories/Props/P95_OwnBlock.v
