-Q theories Verif
theories/Base.v
theories/BaseLemmas.v
theories/Event.v
theories/EventLemmas.v
theories/Claims.v
theories/Geom.v
theories/Float.v
theories/WkbModel.v
theories/WkbSpec.v
theories/WkbClaims.v
theories/WkbRead.v
theories/WkbReadTop.v
theories/WkbWrite.v
theories/WkbWriteTop.v
theories/WkbInv.v
theories/WkbDepth.v
theories/WkbShape.v
theories/WkbTop.v
theories/WkbMarks.v
theories/WkbMore.v
theories/WkbSeq.v
theories/WkbProps.v
theories/WktModel.v
theories/WktSpec.v
theories/WktWrite.v
theories/WktParse.v
theories/WktTop.v
theories/WktProps.v
theories/ProcModel.v
theories/ProcSpec.v
theories/ProcTop.v
theories/ProcProps.v
theories/GeoModel.v
theories/GeoSpec.v
theories/GeoTop.v
theories/GeoExact.v
theories/GeoSafe.v
theories/GeoWkb.v
theories/GeoProps.v
theories/JsonSpec.v
theories/JsonLemmas.v
theories/FeatureSpec.v
theories/GeoJsonModel.v
theories/GeoJsonSpec.v
theories/GeoJsonWrite.v
theories/GeoJsonTop.v
theories/GeoJsonLines.v
theories/GeoJsonRead.v
theories/GeomUnique.v
theories/GeoJsonMore.v
theories/GeoJsonProps.v
theories/XmlSpec.v
theories/SvgModel.v
theories/SvgSpec.v
theories/SvgTop.v
theories/XmlExact.v
theories/SvgExact.v
theories/SvgProps.v
theories/CsvModel.v
theories/CsvSpec.v
theories/CsvTop.v
theories/CsvProps.v
theories/GpxModel.v
theories/GpxSpec.v
theories/GpxTop.v
theories/GpxProps.v
theories/ShpModel.v
theories/ShpSpec.v
theories/ShpTop.v
theories/ShpFeatures.v
theories/ShpSafe.v
theories/ShpShort.v
theories/ShpMore.v
theories/ShpBound.v
theories/ShpProps.v
theories/FloatReal.v
theories/FloatBits.v
theories/MvtModel.v
theories/MvtSpec.v
theories/MvtFloat.v
theories/MvtTop.v
theories/MvtRead.v
theories/MvtSafe.v
theories/MvtPlace.v
theories/MvtMore.v
theories/MvtInt.v
theories/MvtWit.v
theories/MvtProps.v
theories/PlaceTop.v
theories/PlaceProps.v
theories/CmpTop.v
theories/CmpProps.v
theories/ExtentSpec.v
theories/ExtentTop.v
theories/ExtentProps.v
theories/CrossSpec.v
theories/CrossTop.v
theories/CrossProps.v
theories/WidenSpec.v
theories/WidenTop.v
theories/WidenSum.v
theories/WidenProps.v
theories/DbModel.v
theories/DbSpec.v
theories/DbTop.v
theories/DbProps.v
theories/WkbSizes.v
theories/GeosModel.v
theories/GeosSpec.v
theories/GeosTop.v
theories/GeosMore.v
theories/GeosWit.v
theories/GeosProps.v
theories/GeosExactSpec.v
theories/GeosExact.v
theories/GeosExactProps.v
theories/GdalModel.v
theories/GdalSpec.v
theories/GdalTop.v
theories/GdalWrite.v
theories/GdalMore.v
theories/GdalWit.v
theories/GdalProps.v
theories/TessModel.v
theories/TessSpec.v
theories/TessTop.v
theories/TessMore.v
theories/TessWit.v
theories/TessProps.v
theories/CliModel.v
theories/CliSpec.v
theories/CliTop.v
theories/CliMore.v
theories/CliWit.v
theories/CliProps.v
theories/SinkModel.v
theories/SinkSpec.v
theories/SinkTop.v
theories/SinkRead.v
theories/SinkShp.v
theories/SinkWit.v
theories/SinkProps.v
theories/StopSpec.v
theories/StopTop.v
theories/StopConv.v
theories/StopWit.v
theories/StopProps.v
theories/ChainSpec.v
theories/ChainTop.v
theories/ChainProps.v
theories/OrdSpec.v
theories/OrdTop.v
theories/OrdSame.v
theories/OrdWit.v
theories/OrdProps.v
theories/ReencSpec.v
theories/ReencTop.v
theories/ReencWit.v
theories/ReencProps.v
theories/FloatOk.v
theories/SlipSpec.v
theories/SlipTop.v
theories/SlipGdal.v
theories/SlipProps.v
theories/ProcExactSpec.v
theories/ProcExact.v
theories/ProcExactProps.v
theories/InjSpec.v
theories/InjTop.v
theories/InjProps.v
theories/InjExactSpec.v
theories/WkbInj.v
theories/InjExactTop.v
theories/InjExactProps.v
theories/WktTreeSpec.v
theories/WktTreeTop.v
theories/WktTreeProps.v
theories/FilesSpec.v
theories/FilesTop.v
theories/FilesWit.v
theories/FilesProps.v
theories/FromModel.v
theories/FromSpec.v
theories/FromTop.v
theories/FromProps.v
theories/GeoJsonErr.v
theories/GeoJsonErrProps.v
theories/DecSpec.v
theories/DecTop.v
theories/DecNear.v
theories/DecMore.v
theories/DecProps.v
theories/RingSpec.v
theories/RingTop.v
theories/RingMore.v
theories/RingProps.v
theories/ShpTypeSpec.v
theories/ShpTypeTop.v
theories/ShpMeasure.v
theories/ShpTypeProps.v
theories/DrivenSpec.v
theories/DrivenTop.v
theories/DrivenGdal.v
theories/DrivenProps.v
theories/GdalMeasuredSpec.v
theories/GdalMeasured.v
theories/GdalMeasuredProps.v
theories/GdalBeyond.v
theories/GdalBeyondProps.v
theories/GdalExactSpec.v
theories/GdalExact.v
theories/GdalExactProps.v
theories/ShpBack.v
theories/ShpBackProps.v
theories/WkbApiModel.v
theories/WkbApiSpec.v
theories/WkbApiTop.v
theories/WkbApiProps.v
theories/CutSpec.v
theories/CutTop.v
theories/CutWit.v
theories/CutProps.v
theories/JsonExact.v
theories/GeoJsonExact.v
theories/GeoJsonExactProps.v
theories/ShpPanicSpec.v
theories/ShpPanic.v
theories/ShpPanicTop.v
theories/ShpPanicProps.v
theories/WktExactSpec.v
theories/WktFlex.v
theories/WktExactTop.v
theories/WktDisplay.v
theories/WktExactProps.v
theories/CsvExactSpec.v
theories/CsvExactTop.v
theories/CsvExactProps.v
theories/SeveralSpec.v
theories/SeveralText.v
theories/SeveralJson.v
theories/SeveralBin.v
theories/SeveralTop.v
theories/SeveralProps.v
theories/TessExactSpec.v
theories/TessExact.v
theories/TessExactProps.v
theories/WkbSizeSpec.v
theories/WkbSizeTop.v
theories/WkbSizeProps.v
theories/SeveralBlob.v
theories/WkbNamedTop.v
theories/WkbNamedProps.v
theories/NumbersSpec.v
theories/NumbersTop.v
theories/NumbersProps.v
theories/TraceSpec.v
theories/TraceTop.v
theories/TraceProps.v
theories/StaysSpec.v
theories/StaysTop.v
theories/StaysProps.v
theories/ApartSpec.v
theories/ApartTop.v
theories/ApartProps.v
theories/GdalFlat.v
theories/GdalFlatProps.v
theories/FaultSpec.v
theories/FaultTop.v
theories/FaultGdal.v
theories/FaultProps.v
theories/RecordTop.v
theories/RecordProps.v
theories/RaiseSpec.v
theories/RaiseTop.v
theories/RaiseText.v
theories/ShpKindSpec.v
theories/ShpKindTop.v
theories/RaiseProps.v
theories/FormSpec.v
theories/FormTop.v
theories/FormSteady.v
theories/FormProps.v
theories/MoveSpec.v
theories/MoveTop.v
theories/MoveBytes.v
theories/MoveStd.v
theories/MoveShpSpec.v
theories/MoveShp.v
theories/MoveProps.v
theories/AmpSpec.v
theories/AmpTop.v
theories/AmpShp.v
theories/AmpCsv.v
theories/AmpProps.v
theories/BoxSpec.v
theories/BoxTop.v
theories/BoxProps.v
theories/CountModel.v
theories/CountSpec.v
theories/CountTop.v
theories/CountProps.v
