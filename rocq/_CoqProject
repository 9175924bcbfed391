-Q theories Verif
theories/Base.v
theories/Dict.v
theories/Consts.v
theories/Db.v
theories/Report.v
theories/ReportSpec.v
theories/BaseFacts.v
theories/ReportFacts.v
theories/ReportQ.v
theories/ReportMono.v
theories/ReportAll.v
theories/Samples.v
theories/P_Report.v
theories/NameSpec.v
theories/NubFacts.v
theories/Merge.v
theories/MergeClosed.v
theories/MergeSpec.v
theories/MergeStruct.v
theories/MergeCount.v
theories/MergeMore.v
theories/MergeRefs.v
theories/MergeStage.v
theories/P_Merge.v
theories/P_MergeOptions.v
theories/Hist.v
theories/Api.v
theories/Iter.v
theories/ApiSpec.v
theories/ApiFacts.v
theories/ApiItems.v
theories/ApiProps.v
theories/IterFacts.v
theories/P_Api.v
theories/P_Created.v
theories/MergeLive.v
theories/P_MergeLive.v
theories/FieldSpec.v
theories/P_Fields.v
theories/PyInt.v
theories/PyIntFacts.v
theories/Text.v
theories/TextSpec.v
theories/TextFacts.v
theories/Json.v
theories/JsonSpec.v
theories/JsonFacts.v
theories/P_Text.v
theories/Dates.v
theories/DatesFacts.v
theories/CApi.v
theories/P_CApi.v
theories/Heap.v
theories/HeapSpec.v
theories/HeapFacts.v
theories/P_Heap.v
theories/Xml.v
theories/XmlWriter.v
theories/XmlReader.v
theories/XmlSpec.v
theories/XmlWriteFacts.v
theories/XmlReadFacts.v
theories/XmlViews.v
theories/XmlHistSpec.v
theories/XmlHistFacts.v
theories/XmlRound.v
theories/XmlStable.v
theories/XmlDocSpec.v
theories/XmlReport.v
theories/XmlDocFacts.v
theories/P_Xml.v
theories/Zone.v
theories/ZoneFacts.v
theories/P_Zone.v
theories/Schema.v
theories/UcisXsd.v
theories/XmlFactory.v
theories/SchemaSpec.v
theories/SchemaFacts.v
theories/SchemaDoc.v
theories/SchemaRead.v
theories/P_Schema.v
theories/LexSpec.v
theories/LexFacts.v
theories/P_Validation.v
theories/XmlMeans.v
theories/XmlMeansFacts.v
theories/XmlWritable.v
theories/XmlWritableFacts.v
theories/P_Files.v
theories/XmlSession.v
theories/XmlSessionSpec.v
theories/XmlSessionFacts.v
theories/P_Session.v
theories/XmlResume.v
theories/XmlResumeFacts.v
theories/P_Resume.v
theories/Yaml.v
theories/YamlPrints.v
theories/YamlSpec.v
theories/YamlFacts.v
theories/YamlBuild.v
theories/YamlRefs.v
theories/YamlDocSpec.v
theories/YamlDocFacts.v
theories/P_Yaml.v
theories/RefsFacts.v
theories/RefsMerge.v
theories/RefsXml.v
theories/RefsYaml.v
theories/P_Refs.v
theories/Rgy.v
theories/Cmd.v
theories/RgyFacts.v
theories/CmdSpec.v
theories/CmdFacts.v
theories/P_Cmd.v
theories/FilesSpec.v
theories/FilesFacts.v
theories/FilesMerge.v
theories/FilesRead.v
theories/FilesViews.v
theories/FilesAlgebra.v
theories/FilesWrite.v
theories/FilesYaml.v
theories/FileReportSpec.v
theories/FileReportFacts.v
theories/P_EndToEnd.v
theories/P_FileReport.v
theories/YamlReportSpec.v
theories/YamlReportFacts.v
theories/P_YamlReport.v
theories/Lib.v
theories/P_Lib.v
theories/LibBuild.v
theories/LibBuildSpec.v
theories/P_LibBuild.v
theories/LibSameSpec.v
theories/P_LibSame.v
theories/Float64.v
theories/Float64Facts.v
theories/Float64Spec.v
theories/Float64Report.v
theories/Float64All.v
theories/Float64Full.v
theories/P_Float.v
theories/MergeReportSpec.v
theories/MergeReport.v
theories/MergeReportPerm.v
theories/P_MergeReport.v
theories/ConvertReportSpec.v
theories/ConvertReportFacts.v
theories/P_ConvertReport.v
theories/MergeDouble.v
theories/P_MergeDouble.v
theories/PyFloat.v
theories/PrintSpec.v
theories/PrintFacts.v
theories/PrintReport.v
theories/P_Print.v
theories/CovReport.v
theories/CovReportSpec.v
theories/CovReportFacts.v
theories/P_CovReport.v
theories/XmlDocumented.v
theories/XmlDocumentedFacts.v
theories/P_XmlDocs.v
theories/Enums.v
theories/TypesSpec.v
theories/TypesFacts.v
theories/P_Enums.v
theories/Meta.v
theories/P_Meta.v
theories/XmlTextSpec.v
theories/XmlText.v
theories/XmlTextFacts.v
theories/XmlTextWrite.v
theories/P_XmlText.v
theories/JsonTextSpec.v
theories/JsonText.v
theories/JsonTextFacts.v
theories/JsonTextWrite.v
theories/P_JsonText.v
theories/Args.v
theories/ArgsSpec.v
theories/ArgsFacts.v
theories/ArgsLoop.v
theories/ArgsLine.v
theories/P_Args.v
theories/SchemaFiles.v
theories/SchemaText.v
theories/P_SchemaFiles.v
theories/UnitTests.v
theories/P_Pipeline.v
theories/SeenSpec.v
theories/SeenFacts.v
theories/P_Seen.v
theories/RaiseSpec.v
theories/RaiseFacts.v
theories/RaiseRM.v
theories/P_Raise.v
theories/Overflow.v
theories/OverflowSpec.v
theories/OverflowFacts.v
theories/P_Overflow.v
theories/FaultSpec.v
theories/FaultFacts.v
theories/FaultReadSpec.v
theories/FaultReadFacts.v
theories/FaultValid.v
theories/P_Fault.v
theories/DateTextSpec.v
theories/DateTextFacts.v
theories/P_DateText.v
theories/ReadAttrsSpec.v
theories/P_ReadAttrs.v
theories/YamlFaultSpec.v
theories/P_YamlFault.v
theories/FileObjs.v
theories/FileObjsFacts.v
theories/P_FileObjs.v
theories/YamlCalls.v
theories/YamlCallsFacts.v
theories/P_YamlCalls.v
theories/XmlCalls.v
theories/XmlCallsFacts.v
theories/XmlLeft.v
theories/XmlLeftFacts.v
theories/P_XmlCalls.v
theories/MergeCalls.v
theories/MergeCallsFacts.v
theories/P_MergeCalls.v
