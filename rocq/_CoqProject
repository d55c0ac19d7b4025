-Q theories Verif
theories/Base/Decimal.v
theories/Base/Prelude.v
theories/Base/SMap.v
theories/Model/Area.v
theories/Model/Areas.v
theories/Model/Assembler.v
theories/Model/Attr.v
theories/Model/Builder.v
theories/Model/Convert.v
theories/Model/ConvertMain.v
theories/Model/Debug.v
theories/Model/Decfloat.v
theories/Model/Density.v
theories/Model/Export.v
theories/Model/Float.v
theories/Model/Geom.v
theories/Model/Handler.v
theories/Model/Haversine.v
theories/Model/Js.v
theories/Model/Members.v
theories/Model/Ogr.v
theories/Model/Osm.v
theories/Model/Osm2shape.v
theories/Model/OsmFile.v
theories/Model/Osmjs.v
theories/Model/Pbf.v
theories/Model/Programs.v
theories/Model/Progress.v
theories/Model/Reuse.v
theories/Model/Scripts.v
theories/Model/Shapefile.v
theories/Model/Store.v
theories/Model/Tags.v
theories/Model/Time.v
theories/Model/Timing.v
theories/Model/Toshape.v
theories/Model/Unicode.v
theories/Model/Utils.v
theories/Model/Wkt.v
theories/Model/Xml.v
theories/Spec/AreaSpec.v
theories/Spec/AreasSpec.v
theories/Spec/AssemblerSpec.v
theories/Spec/AttrSpec.v
theories/Spec/BuilderSpec.v
theories/Spec/ConvertMainSpec.v
theories/Spec/ConvertSpec.v
theories/Spec/DebugSpec.v
theories/Spec/DecimalSpec.v
theories/Spec/DensitySpec.v
theories/Spec/ExportSpec.v
theories/Spec/FloatSpec.v
theories/Spec/GeomSpec.v
theories/Spec/HandlerSpec.v
theories/Spec/HaversineSpec.v
theories/Spec/JsSpec.v
theories/Spec/MembersSpec.v
theories/Spec/NoNumberSpec.v
theories/Spec/OgrSpec.v
theories/Spec/Osm2shapeSpec.v
theories/Spec/OsmFileSpec.v
theories/Spec/OsmSpec.v
theories/Spec/OsmjsSpec.v
theories/Spec/PbfExamples.v
theories/Spec/PbfSizeSpec.v
theories/Spec/PbfSpec.v
theories/Spec/ProgramsSpec.v
theories/Spec/ProgressSpec.v
theories/Spec/Protobuf.v
theories/Spec/ReuseSpec.v
theories/Spec/ScriptsSpec.v
theories/Spec/ShapefileSpec.v
theories/Spec/StoreSpec.v
theories/Spec/TagsSpec.v
theories/Spec/TimeSpec.v
theories/Spec/TimingSpec.v
theories/Spec/ToshapeSpec.v
theories/Spec/UnicodeSpec.v
theories/Spec/UtilsSpec.v
theories/Spec/WktSpec.v
theories/Spec/XmlExamples.v
theories/Spec/XmlSpec.v
theories/Spec/XmlText.v
theories/Proofs/AreaProofs.v
theories/Proofs/Areas2Proofs.v
theories/Proofs/AreasProofs.v
theories/Proofs/Assembler2Proofs.v
theories/Proofs/Assembler3Proofs.v
theories/Proofs/Assembler4Proofs.v
theories/Proofs/AssemblerProofs.v
theories/Proofs/AttrProofs.v
theories/Proofs/Builder2Proofs.v
theories/Proofs/Builder3Proofs.v
theories/Proofs/Builder4Proofs.v
theories/Proofs/Builder5Proofs.v
theories/Proofs/Builder6Proofs.v
theories/Proofs/Builder7Proofs.v
theories/Proofs/Builder8Proofs.v
theories/Proofs/Builder9Proofs.v
theories/Proofs/BuilderProofs.v
theories/Proofs/Convert2Proofs.v
theories/Proofs/ConvertMain2Proofs.v
theories/Proofs/ConvertMain3Proofs.v
theories/Proofs/ConvertMain4Proofs.v
theories/Proofs/ConvertMainProofs.v
theories/Proofs/ConvertNoStop.v
theories/Proofs/ConvertProofs.v
theories/Proofs/Debug2Proofs.v
theories/Proofs/DebugBounds.v
theories/Proofs/DebugProofs.v
theories/Proofs/DecfloatProofs.v
theories/Proofs/DensityFloat.v
theories/Proofs/DensityProofs.v
theories/Proofs/Export2Proofs.v
theories/Proofs/ExportProofs.v
theories/Proofs/FailProofs.v
theories/Proofs/FloatProofs.v
theories/Proofs/GeomProofs.v
theories/Proofs/Handler2Proofs.v
theories/Proofs/Handler3Proofs.v
theories/Proofs/HandlerProofs.v
theories/Proofs/HavError2Proofs.v
theories/Proofs/HavError3Proofs.v
theories/Proofs/HavError4Proofs.v
theories/Proofs/HavErrorProofs.v
theories/Proofs/HavFloatProofs.v
theories/Proofs/HaversineProofs.v
theories/Proofs/JsOutProofs.v
theories/Proofs/JsProofs.v
theories/Proofs/MembersProofs.v
theories/Proofs/NoNumberProofs.v
theories/Proofs/ObjectsOnly.v
theories/Proofs/Ogr2Proofs.v
theories/Proofs/OgrProofs.v
theories/Proofs/Osm2shape2Proofs.v
theories/Proofs/Osm2shapeProofs.v
theories/Proofs/OsmFileProofs.v
theories/Proofs/OsmProofs.v
theories/Proofs/Osmjs2Proofs.v
theories/Proofs/OsmjsProofs.v
theories/Proofs/PbfBlockProofs.v
theories/Proofs/PbfDecodeProofs.v
theories/Proofs/PbfFloatProofs.v
theories/Proofs/PbfFrameProofs.v
theories/Proofs/PbfMainProofs.v
theories/Proofs/PbfProofs.v
theories/Proofs/PbfSafeProofs.v
theories/Proofs/PbfSizeProofs.v
theories/Proofs/PbfStringProofs.v
theories/Proofs/PbfSuccessProofs.v
theories/Proofs/PbfTheorems.v
theories/Proofs/PbfWriteProofs.v
theories/Proofs/PiProofs.v
theories/Proofs/Programs2Proofs.v
theories/Proofs/Programs3Proofs.v
theories/Proofs/Programs4Proofs.v
theories/Proofs/ProgramsProofs.v
theories/Proofs/ProgressFloat.v
theories/Proofs/ProgressProofs.v
theories/Proofs/ProtobufProofs.v
theories/Proofs/ReuseProofs.v
theories/Proofs/ScriptsProofs.v
theories/Proofs/Shapefile2Proofs.v
theories/Proofs/ShapefileProofs.v
theories/Proofs/SmallProofs.v
theories/Proofs/StoreProofs.v
theories/Proofs/TagsProofs.v
theories/Proofs/TimeProofs.v
theories/Proofs/Timing2Proofs.v
theories/Proofs/TimingProofs.v
theories/Proofs/Toshape2Proofs.v
theories/Proofs/ToshapeProofs.v
theories/Proofs/UnicodeProofs.v
theories/Proofs/UtilsProofs.v
theories/Proofs/WktProofs.v
theories/Proofs/XmlFileProofs.v
theories/Proofs/XmlReadProofs.v
theories/Proofs/XmlTextProofs.v
theories/Proofs/XmlTheorems.v
theories/Proofs/XmlWriteProofs.v
theories/Props/P_Area.v
theories/Props/P_Areas.v
theories/Props/P_Assembler.v
theories/Props/P_Attr.v
theories/Props/P_Builder.v
theories/Props/P_Convert.v
theories/Props/P_ConvertMain.v
theories/Props/P_Core.v
theories/Props/P_Debug.v
theories/Props/P_Density.v
theories/Props/P_Errors.v
theories/Props/P_Export.v
theories/Props/P_File.v
theories/Props/P_Float.v
theories/Props/P_Geom.v
theories/Props/P_Handler.v
theories/Props/P_Haversine.v
theories/Props/P_Js.v
theories/Props/P_Members.v
theories/Props/P_Ogr.v
theories/Props/P_Osm2shape.v
theories/Props/P_Osmjs.v
theories/Props/P_Pbf.v
theories/Props/P_PbfSize.v
theories/Props/P_Programs.v
theories/Props/P_Programs2.v
theories/Props/P_Programs3.v
theories/Props/P_Progress.v
theories/Props/P_Scripts.v
theories/Props/P_Store.v
theories/Props/P_Tags.v
theories/Props/P_Timing.v
theories/Props/P_Toshape.v
theories/Props/P_Unicode.v
theories/Props/P_Utils.v
theories/Props/P_Wkt.v
theories/Props/P_Xml.v
