-Q theories Verif
theories/GoBase.v
theories/Crc.v
theories/Float64.v
theories/SubRecords.v
theories/Records.v
theories/Package.v
theories/Storage.v
theories/Server.v
theories/PacketGen.v
theories/Config.v
theories/Main.v
theories/Spec_Main.v
theories/MainFacts.v
theories/Prop_Main.v
theories/Vectors.v
theories/Samples.v
theories/Spec_Bits.v
theories/Spec_Wf.v
theories/BaseFacts.v
theories/Spec_Crc.v
theories/CrcFacts.v
theories/SubFacts.v
theories/Spec_Rec.v
theories/RecFacts.v
theories/DecFacts.v
theories/DecWf.v
theories/DecWf2.v
theories/Spec_Go.v
theories/EncOk.v
theories/Spec_Server.v
theories/ServerFacts.v
theories/ServerFacts2.v
theories/ServerFacts3.v
theories/ServerFacts4.v
theories/ServerFacts5.v
theories/Spec_Pkg.v
theories/PkgFacts.v
theories/PkgFacts2.v
theories/SuffixFacts.v
theories/PkgFacts3.v
theories/Prop_Crc.v
theories/Witness.v
theories/CodecFacts.v
theories/TruncFacts.v
theories/Glue.v
theories/Spec_Damage.v
theories/BurstFacts.v
theories/Prop_Decode.v
theories/Prop_Codec.v
theories/GluePkg.v
theories/GlueServer.v
theories/Connectors.v
theories/Spec_Storage.v
theories/StorageFacts.v
theories/WitnessServer.v
theories/GlueGen.v
theories/GlueServer2.v
theories/Spec_Stream.v
theories/StreamFacts.v
theories/DamageFacts.v
theories/Prop_Damage.v
theories/OutFacts.v
theories/Prop_Stream.v
theories/Prop_Server.v
theories/Prop_Package.v
theories/Prop_Storage.v
theories/Prop_Gen.v
theories/Prop_Config.v
theories/TimeFacts.v
theories/Spec_Float.v
theories/FloatFacts.v
theories/CoordFacts.v
theories/TimeExact.v
theories/SavedFacts.v
theories/Prop_Float.v
theories/Spec_Layout.v
theories/LayoutFacts.v
theories/LayoutFacts2.v
theories/LayoutFacts3.v
theories/Prop_Layout.v
theories/Spec_Calendar.v
theories/CalendarFacts.v
theories/Prop_Time.v
theories/Json.v
theories/Spec_Json.v
theories/JsonFacts.v
theories/Prop_Json.v
theories/PkgJson.v
theories/Spec_PkgJson.v
theories/PkgJsonFacts.v
theories/InstantFacts.v
theories/BuiltFacts.v
theories/PkgJsonFacts2.v
theories/Prop_PkgJson.v
theories/EchoFacts.v
theories/Prop_Echo.v
theories/Spec_Exact.v
theories/ExactFacts.v
theories/Prop_Exact.v
theories/Proto.v
theories/Spec_Proto.v
theories/Spec_ProtoMsg.v
theories/Spec_ProtoFile.v
theories/ProtoFacts.v
theories/ProtoFacts2.v
theories/ProtoFacts3.v
theories/ProtoFacts4.v
theories/ProtoFacts5.v
theories/Prop_Proto.v
theories/PlusJson.v
theories/Spec_PlusJson.v
theories/PlusJsonFacts.v
theories/PlusJsonFacts2.v
theories/PlusJsonFacts3.v
theories/Prop_PlusJson.v
theories/Spec_Verdict.v
theories/VerdictFacts.v
theories/Prop_Verdict.v
theories/Alloc.v
theories/AllocFacts.v
theories/AllocFacts2.v
theories/Prop_Alloc.v
theories/Spec_Flags.v
theories/FlagFacts.v
theories/SurviveFacts.v
theories/Prop_Flags.v
theories/Reuse.v
theories/Spec_Reuse.v
theories/ReuseFacts.v
theories/Prop_Reuse.v
theories/Yaml.v
theories/Spec_Yaml.v
theories/YamlFacts.v
theories/Prop_Yaml.v
theories/Dsn.v
theories/Spec_Dsn.v
theories/DsnFacts.v
theories/Prop_Dsn.v
theories/Amqp.v
theories/Spec_Amqp.v
theories/AmqpFacts.v
theories/Prop_Amqp.v
theories/Replay.v
theories/Spec_Replay.v
theories/Prop_Replay.v
theories/Spec_Cover.v
theories/CoverFacts.v
theories/Prop_Cover.v
theories/AmplFacts.v
theories/Prop_Ampl.v
theories/Spec_Policy.v
theories/PolicyFacts.v
theories/Prop_Policy.v
theories/Lifecycle.v
theories/Listen.v
theories/Spec_Life.v
theories/LifeFacts.v
theories/Prop_Life.v
theories/Spec_Given.v
theories/GivenFacts.v
theories/Prop_Given.v
theories/Logbook.v
theories/Spec_Log.v
theories/LogFacts.v
theories/Prop_Log.v
theories/Timed.v
theories/Spec_Timed.v
theories/TimedFacts.v
theories/Prop_Timed.v
theories/Reply.v
theories/Spec_Reply.v
theories/ReplyFacts.v
theories/Prop_Reply.v
theories/Spec_Accept.v
theories/AcceptFacts.v
theories/Prop_Accept.v
theories/Spec_Settings.v
theories/Prop_Settings.v
theories/GenTimed.v
theories/Prop_GenTimed.v
theories/Hang.v
theories/Spec_Hang.v
theories/HangFacts.v
theories/HangServer.v
theories/Prop_Hang.v
theories/Reason.v
theories/Spec_Reason.v
theories/ReasonFacts.v
theories/Prop_Reason.v
theories/Prop_Session.v
theories/Prop_GenParams.v
theories/Address.v
theories/Spec_Address.v
theories/Prop_Address.v
theories/Insert.v
theories/Spec_Insert.v
theories/Prop_Insert.v
