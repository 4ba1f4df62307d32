-Q theories Verif
theories/Base/Codec.v
theories/Base/PyBase.v
theories/Base/PyClock.v
theories/Base/PyDate.v
theories/Base/PyFloat.v
theories/Base/PyVal.v
theories/Base/PyZone.v
theories/Base/Unicode.v
theories/Base/Xml.v
theories/Model/Alpha.v
theories/Model/Attr.v
theories/Model/AttrUtils.v
theories/Model/Cache.v
theories/Model/ClassObjects.v
theories/Model/Classify.v
theories/Model/DateConv.v
theories/Model/Duration.v
theories/Model/Elements.v
theories/Model/Examples.v
theories/Model/ExtParse.v
theories/Model/FileNames.v
theories/Model/Files.v
theories/Model/Heap.v
theories/Model/HeapAnon.v
theories/Model/Log.v
theories/Model/LogInfo.v
theories/Model/Logging.v
theories/Model/Millis.v
theories/Model/MxmlRead.v
theories/Model/MxmlWrite.v
theories/Model/NameMap.v
theories/Model/Nested.v
theories/Model/NetFile.v
theories/Model/People.v
theories/Model/RandomLog.v
theories/Model/Registered.v
theories/Model/Registry.v
theories/Model/Renamed.v
theories/Model/StdExt.v
theories/Model/StdInit.v
theories/Model/TimeBounds.v
theories/Model/Timer.v
theories/Model/Token.v
theories/Model/Trace.v
theories/Model/TraceBounds.v
theories/Model/Wrapper.v
theories/Model/XesRead.v
theories/Model/XesWrite.v
theories/Model/XidObjects.v
theories/Model/XmlChars.v
theories/Model/XmlText.v
theories/Model/Zone.v
theories/Proofs/AlphaFacts.v
theories/Proofs/AnonFacts.v
theories/Proofs/AttrFacts.v
theories/Proofs/AttrInd.v
theories/Proofs/AttrTextFacts.v
theories/Proofs/AttrUtilFacts.v
theories/Proofs/BaseFacts.v
theories/Proofs/BoundsTextFacts.v
theories/Proofs/CacheFacts.v
theories/Proofs/ClassFacts.v
theories/Proofs/ClassObjectFacts.v
theories/Proofs/ClockFacts.v
theories/Proofs/CloneFacts.v
theories/Proofs/CloneMain.v
theories/Proofs/ConvertFacts.v
theories/Proofs/CreateFacts.v
theories/Proofs/CsvFacts.v
theories/Proofs/DateFacts.v
theories/Proofs/DiskFacts.v
theories/Proofs/DurationFacts.v
theories/Proofs/EditFacts.v
theories/Proofs/ElementFacts.v
theories/Proofs/EventClassFacts.v
theories/Proofs/ExampleFacts.v
theories/Proofs/ExtFacts.v
theories/Proofs/ExtFaultFacts.v
theories/Proofs/FaultFacts.v
theories/Proofs/FileFacts.v
theories/Proofs/FileTextFacts.v
theories/Proofs/FloatFacts.v
theories/Proofs/FloatStamps.v
theories/Proofs/HeapAnonFacts.v
theories/Proofs/IdFacts.v
theories/Proofs/IdStored.v
theories/Proofs/InfoFacts.v
theories/Proofs/LabelFacts.v
theories/Proofs/LifecycleFacts.v
theories/Proofs/LoggingFacts.v
theories/Proofs/LooseFacts.v
theories/Proofs/LowerFacts.v
theories/Proofs/MiningFacts.v
theories/Proofs/MixedFacts.v
theories/Proofs/MxmlFacts.v
theories/Proofs/MxmlFaultFacts.v
theories/Proofs/MxmlKeptFacts.v
theories/Proofs/MxmlLogFacts.v
theories/Proofs/MxmlPlaceFacts.v
theories/Proofs/MxmlRoundFacts.v
theories/Proofs/MxmlSettledFacts.v
theories/Proofs/MxmlWrittenFacts.v
theories/Proofs/NameMapFacts.v
theories/Proofs/NestedFacts.v
theories/Proofs/NetFileFacts.v
theories/Proofs/NetLawsFacts.v
theories/Proofs/OrderFacts.v
theories/Proofs/PeopleFacts.v
theories/Proofs/PlatformFacts.v
theories/Proofs/RandomFacts.v
theories/Proofs/RegisteredFacts.v
theories/Proofs/RegistryFacts.v
theories/Proofs/RenamedFacts.v
theories/Proofs/ReplayFacts.v
theories/Proofs/RoundFacts.v
theories/Proofs/SameFileFacts.v
theories/Proofs/SetterFacts.v
theories/Proofs/SettledFacts.v
theories/Proofs/StandardFacts.v
theories/Proofs/StatFacts.v
theories/Proofs/StatFacts2.v
theories/Proofs/StrFacts.v
theories/Proofs/TimerFacts.v
theories/Proofs/TokenFacts.v
theories/Proofs/TraceBoundFacts.v
theories/Proofs/TraceFacts.v
theories/Proofs/WrapperFacts.v
theories/Proofs/WrapperReads.v
theories/Proofs/XesLogFacts.v
theories/Proofs/XesPartsFacts.v
theories/Proofs/XesReadFacts.v
theories/Proofs/XesRoundFacts.v
theories/Proofs/XesStackFacts.v
theories/Proofs/XesWrittenFacts.v
theories/Proofs/XidFacts.v
theories/Proofs/XidObjectFacts.v
theories/Proofs/XmlFileFacts.v
theories/Proofs/XmlLineFacts.v
theories/Proofs/XmlScanFacts.v
theories/Proofs/XmlTextFacts.v
theories/Proofs/ZoneFacts.v
theories/Props/P_Alpha.v
theories/Props/P_Anon.v
theories/Props/P_AttrText.v
theories/Props/P_AttrUtils.v
theories/Props/P_Attributes.v
theories/Props/P_BoundsText.v
theories/Props/P_Cache.v
theories/Props/P_ClassObjects.v
theories/Props/P_Classify.v
theories/Props/P_Clone.v
theories/Props/P_Convert.v
theories/Props/P_Csv.v
theories/Props/P_Dates.v
theories/Props/P_Disk.v
theories/Props/P_Elements.v
theories/Props/P_EventClass.v
theories/Props/P_Examples.v
theories/Props/P_Ext.v
theories/Props/P_ExtDef.v
theories/Props/P_ExtFaults.v
theories/Props/P_Faults.v
theories/Props/P_FileTexts.v
theories/Props/P_Files.v
theories/Props/P_HeapAnon.v
theories/Props/P_Info.v
theories/Props/P_Labels.v
theories/Props/P_Logging.v
theories/Props/P_Loose.v
theories/Props/P_Millis.v
theories/Props/P_Mining.v
theories/Props/P_Mixed.v
theories/Props/P_Mxml.v
theories/Props/P_MxmlFaults.v
theories/Props/P_MxmlKept.v
theories/Props/P_MxmlSettled.v
theories/Props/P_MxmlWritten.v
theories/Props/P_NameMaps.v
theories/Props/P_NetFile.v
theories/Props/P_NetLaws.v
theories/Props/P_People.v
theories/Props/P_Platform.v
theories/Props/P_Random.v
theories/Props/P_Registered.v
theories/Props/P_Registries.v
theories/Props/P_Renamed.v
theories/Props/P_Replay.v
theories/Props/P_SameFile.v
theories/Props/P_Settled.v
theories/Props/P_Standard.v
theories/Props/P_Stats.v
theories/Props/P_Time.v
theories/Props/P_Timer.v
theories/Props/P_Tokens.v
theories/Props/P_TraceBounds.v
theories/Props/P_Wrapper.v
theories/Props/P_Xes.v
theories/Props/P_XesWritten.v
theories/Props/P_XidObjects.v
theories/Props/P_XmlLines.v
theories/Props/P_XmlText.v
theories/Props/P_Zone.v
theories/Spec/AlphaNet.v
theories/Spec/Anon.v
theories/Spec/AttrText.v
theories/Spec/AttrUtils.v
theories/Spec/BoundsText.v
theories/Spec/ClassObjects.v
theories/Spec/Classes.v
theories/Spec/Clone.v
theories/Spec/Convert.v
theories/Spec/Csv.v
theories/Spec/DateText.v
theories/Spec/Duration.v
theories/Spec/Elements.v
theories/Spec/ExtDef.v
theories/Spec/ExtFaults.v
theories/Spec/Faults.v
theories/Spec/FileTexts.v
theories/Spec/Files.v
theories/Spec/Folders.v
theories/Spec/HeapAnon.v
theories/Spec/Ids.v
theories/Spec/Info.v
theories/Spec/Labels.v
theories/Spec/Logging.v
theories/Spec/Loose.v
theories/Spec/Millis.v
theories/Spec/Mining.v
theories/Spec/Mixed.v
theories/Spec/Mxml.v
theories/Spec/MxmlFaults.v
theories/Spec/MxmlKept.v
theories/Spec/MxmlSettled.v
theories/Spec/MxmlWritten.v
theories/Spec/NestedSpec.v
theories/Spec/NetFile.v
theories/Spec/NetLaws.v
theories/Spec/OnDisk.v
theories/Spec/Orders.v
theories/Spec/People.v
theories/Spec/Platform.v
theories/Spec/RandomLog.v
theories/Spec/Registered.v
theories/Spec/Registries.v
theories/Spec/Renamed.v
theories/Spec/Replay.v
theories/Spec/SameFile.v
theories/Spec/Setters.v
theories/Spec/Settled.v
theories/Spec/Standard.v
theories/Spec/Survive.v
theories/Spec/Time.v
theories/Spec/Timer.v
theories/Spec/TraceBounds.v
theories/Spec/Transform.v
theories/Spec/Typing.v
theories/Spec/Wrapper.v
theories/Spec/Xes.v
theories/Spec/XesParts.v
theories/Spec/XesWritten.v
theories/Spec/XidObjects.v
theories/Spec/XmlLines.v
theories/Spec/XmlNorm.v
theories/Spec/Zone.v
theories/Tests/ExampleFiles.v
theories/Tests/RepoTests.v
theories/Tests/StdlibTests.v
