-Q theories Verif
theories/Base.v
theories/BaseFacts.v
theories/WireModel.v
theories/WireProofs.v
theories/WireExact.v
theories/WireSpec.v
theories/WireProps.v
theories/TextSpec.v
theories/JsonSpec.v
theories/GoJSON.v
theories/TextProofs.v
theories/JsonProofs.v
theories/MessagerModel.v
theories/MessagerSpec.v
theories/MessagerProofs.v
theories/MessagerProps.v
theories/GoFloat.v
theories/Web100Model.v
theories/Web100Proofs.v
theories/Web100Props.v
theories/Effect.v
theories/GoStrings.v
theories/ControlModel.v
theories/ControlSpec.v
theories/StringsProofs.v
theories/ControlProofs.v
theories/MetaProofs.v
theories/HandleProofs.v
theories/ControlFacts.v
theories/TestFacts.v
theories/ControlMore.v
theories/ControlExample.v
theories/ControlProps.v
theories/ControlProps2.v
theories/FloatSpec.v
theories/FloatFacts.v
theories/QueryModel.v
theories/QuerySpec.v
theories/QueryProofs.v
theories/Ndt7Model.v
theories/Ndt7Spec.v
theories/SenderProofs.v
theories/SenderFacts.v
theories/ReceiverProofs.v
theories/RequestProofs.v
theories/RequestFacts.v
theories/Ndt7More.v
theories/Ndt7Example.v
theories/QueryProps.v
theories/Ndt7Props.v
theories/Lts.v
theories/DoModel.v
theories/DoProofs.v
theories/MeasurerModel.v
theories/MeasurerSpec.v
theories/MeasurerProofs.v
theories/GoroutineProps.v
theories/ServingModel.v
theories/ServingProofs.v
theories/ServingProps.v
theories/PollerModel.v
theories/PollerProofs.v
theories/PollerProps.v
theories/NetxModel.v
theories/NetxProofs.v
theories/NetxProps.v
theories/ArchiveModel.v
theories/ArchiveProofs.v
theories/ArchiveProps.v
theories/FloatRate.v
theories/FloatFinite.v
theories/RateSpec.v
theories/RateSpec2.v
theories/RateProofs.v
theories/RateExample.v
theories/RateProps.v
theories/SniffModel.v
theories/SniffProofs.v
theories/SniffProps.v
theories/MainModel.v
theories/MainProofs.v
theories/MainProps.v
theories/TransferModel.v
theories/TransferProofs.v
theories/TransferProps.v
theories/AcceptModel.v
theories/AcceptProofs.v
theories/AcceptProps.v
theories/CodecModel.v
theories/CodecSpec.v
theories/CodecProofs.v
theories/CodecShape.v
theories/CodecFacts.v
theories/CodecRead.v
theories/CodecDemo.v
theories/CodecProps.v
theories/LifeModel.v
theories/LifeProofs.v
theories/LifeProps.v
theories/OutcomeSpec.v
theories/OutcomeProofs.v
theories/OutcomeExample.v
theories/OutcomeProps.v
theories/IdentityModel.v
theories/IdentitySpec.v
theories/IdentityProofs.v
theories/IdentityProps.v
theories/StartModel.v
theories/StartSpec.v
theories/StartProofs.v
theories/StartProps.v
theories/MetricsSpec.v
theories/MetricsProofs.v
theories/MetricsProps.v
theories/NumberSpec.v
theories/NumberProofs.v
theories/NumberRound.v
theories/NumberParse.v
theories/NumberFacts.v
theories/NumberProps.v
theories/TimeModel.v
theories/TimeSpec.v
theories/TimeProofs.v
theories/TimeFacts.v
theories/TimeProps.v
theories/BoundProofs.v
theories/BoundProps.v
theories/HandshakeModel.v
theories/HandshakeSpec.v
theories/HandshakeProofs.v
theories/HandshakeProps.v
theories/ToldSpec.v
theories/ToldProofs.v
theories/ToldExample.v
theories/ToldProps.v
theories/FlagModel.v
theories/FlagSpec.v
theories/FlagProofs.v
theories/FlagProps.v
theories/RecordProps.v
theories/ExactModel.v
theories/ExactFloat.v
theories/ExactProofs.v
theories/ExactValid.v
theories/ExactSpec.v
theories/ExactTime.v
theories/ExactCodec.v
theories/ExactExample.v
theories/ExactProps.v
theories/SchemaModel.v
theories/SchemaSpec.v
theories/SchemaProofs.v
theories/SchemaFacts.v
theories/SchemaProps.v
theories/PathSpec.v
theories/PathProofs.v
theories/EdgeFacts.v
theories/EdgeProps.v
theories/ReceiveProps.v
theories/UnderscoreSpec.v
theories/UnderscoreProofs.v
theories/UnderscoreProps.v
theories/OverflowProofs.v
theories/OverflowProps.v
theories/ServeFacts.v
theories/ServeProps.v
theories/CountModel.v
theories/CountSpec.v
theories/CountProofs.v
theories/CountProps.v
theories/ExpiredProofs.v
theories/ExpiredProps.v
theories/TruncateProofs.v
theories/TruncateProps.v
theories/DiskProofs.v
theories/DiskProps.v
theories/ZoneModel.v
theories/ZoneSpec.v
theories/ZoneProofs.v
theories/ZoneProps.v
