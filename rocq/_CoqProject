-Q theories Verif
theories/Base.v
theories/ModelTypes.v
theories/Strings.v
theories/Base64.v
theories/ConfigModel.v
theories/GenModel.v
theories/GenSpec.v
theories/GenProofs.v
theories/GenProofs2.v
theories/GenProofs3.v
theories/GenProofs4.v
theories/GenProofs5.v
theories/GenProofs6.v
theories/GenProofs7.v
theories/GenExample.v
theories/GenProofs8.v
theories/GenSpec2.v
theories/GenProofs9.v
theories/SpaceSpec.v
theories/SpaceProps.v
theories/StrictSpec.v
theories/StrictProofs.v
theories/StrictProps.v
theories/PassSpec.v
theories/PassProps.v
theories/AttrSpec.v
theories/AttrProofs.v
theories/AttrProps.v
theories/SwapSpec.v
theories/SwapProofs.v
theories/SwapProps.v
theories/CdataSpec.v
theories/CdataProps.v
theories/MixSpec.v
theories/MixProps.v
theories/ChainSpec.v
theories/ChainProofs.v
theories/ChainProps.v
theories/StaySpec.v
theories/StayProofs.v
theories/StayProps.v
theories/UpSpec.v
theories/UpProofs.v
theories/UpProps.v
theories/MoveProps.v
theories/HoldProofs.v
theories/HoldProps.v
theories/TripSpec.v
theories/TripProofs.v
theories/TripProps.v
theories/GenProps.v
theories/Regex.v
theories/Enums.v
theories/ValModel.v
theories/ValSpec.v
theories/ValProofs.v
theories/ValProofs2.v
theories/ValProofs3.v
theories/ValProofs4.v
theories/ValProps.v
theories/ValLocSpec.v
theories/ValLocate.v
theories/ValLocProps.v
theories/ValBuildProps.v
theories/GenValProofs.v
theories/GenValProps.v
theories/Json.v
theories/JsonLemmas.v
theories/JsonModel.v
theories/JsonSpec.v
theories/JsonProofs.v
theories/JsonProofs2.v
theories/JsonProofs3.v
theories/JsonProofs4.v
theories/JsonMore.v
theories/JsonProps.v
theories/Xml.v
theories/XmlSpec2.v
theories/XmlSpec3.v
theories/XmlLemmas.v
theories/XmlGeneral.v
theories/XmlModel.v
theories/XmlFine.v
theories/XmlExact.v
theories/XmlSpec.v
theories/XmlRead.v
theories/XmlProofs.v
theories/XmlProofs2.v
theories/XmlProofs3.v
theories/XmlProofs4.v
theories/XmlProps.v
theories/XmlProps2.v
theories/VersionedModel.v
theories/VersionedSpec.v
theories/VersionedProofs.v
theories/VersionedProps.v
theories/Schema.v
theories/SchemaText.v
theories/SchemaLemmas.v
theories/SchemaSpec.v
theories/SchemaProofs.v
theories/SchemaProofs2.v
theories/SchemaProofs3.v
theories/SchemaProofs4.v
theories/SchemaProofs5.v
theories/SchemaGen.v
theories/SchemaProps.v
theories/ReqSpec.v
theories/ReqProofs.v
theories/ReqProps.v
theories/XmlExactProps.v
theories/GrammarSpec.v
theories/GrammarProofs.v
theories/GrammarProps.v
theories/GenReadSpec.v
theories/GenRead.v
theories/GenReadProps.v
theories/SameSpec.v
theories/SameProofs.v
theories/SameOrder.v
theories/SameProps.v
theories/FormModel.v
theories/FormSpec.v
theories/FormProofs.v
theories/FormProps.v
theories/ResaveSpec.v
theories/ResaveProofs.v
theories/ResaveProps.v
theories/XmlSettle.v
theories/XmlYield.v
theories/XmlResaveSpec.v
theories/XmlResave.v
theories/XmlResaveProps.v
theories/ConvertSpec.v
theories/ConvertProofs.v
theories/ConvertProps.v
theories/XmlFitSpec.v
theories/XmlFitProofs.v
theories/ConvertProofs2.v
theories/XmlFitProps.v
theories/XmlForm.v
theories/XmlFormRead.v
theories/XmlFormProofs.v
theories/XmlFormProofs2.v
theories/XmlFormProps.v
theories/XmlWrittenSpec.v
theories/XmlWrittenProofs.v
theories/XmlWrittenProps.v
theories/JsonForm.v
theories/JsonFormProofs.v
theories/JsonFormProps.v
theories/RunModel.v
theories/RunSpec.v
theories/RunProofs.v
theories/RunProps.v
theories/BuildModel.v
theories/BuildSpec.v
theories/BuildProofs.v
theories/BuildProps.v
theories/OrderProps.v
theories/DescribeSpec.v
theories/DescribeProps.v
theories/OptionSpec.v
theories/OptionProps.v
theories/LogModel.v
theories/LogSpec.v
theories/LogProps.v
theories/DebugModel.v
theories/DebugProps.v
theories/ValMsgSpec.v
theories/ValMsgProps.v
theories/ValApiModel.v
theories/ValApiProps.v
theories/StopSpec.v
theories/StopProps.v
theories/LaxModel.v
theories/LaxProps.v
theories/CliModel.v
theories/CliSpec.v
theories/CliProofs.v
theories/CliProps.v
theories/InvokeModel.v
theories/InvokeSpec.v
theories/InvokeProps.v
theories/HistorySpec.v
theories/HistoryProps.v
theories/TogetherSpec.v
theories/TogetherProps.v
theories/ShareModel.v
theories/ShareSpec.v
theories/ShareProps.v
theories/CrowdSpec.v
theories/CrowdProps.v
theories/NullSpec.v
theories/NullProofs.v
theories/NullProps.v
