-Q theories Verif
theories/Base.v
theories/Py.v
theories/Utf8.v
theories/Cbor.v
theories/CborProofs.v
theories/SerFacts.v
theories/Props_Serializer.v
theories/Text.v
theories/Ids.v
theories/IdsProofs.v
theories/Props_Ids.v
theories/Register.v
theories/Props_Register.v
theories/Fl.v
theories/Helpers.v
theories/Props_Helpers.v
theories/Mask.v
theories/TextFacts.v
theories/Props_Mask.v
theories/Crypto.v
theories/Ecies.v
theories/EciesProofs.v
theories/Props_Ecies.v
theories/Promissory.v
theories/Props_Promissory.v
theories/SemVer.v
theories/Version.v
theories/VersionFacts.v
theories/Props_Version.v
theories/Validators.v
theories/IpFacts.v
theories/Props_Validators.v
theories/Data.v
theories/Ecc.v
theories/Props_Ecc.v
theories/DataProofs.v
theories/ContProofs.v
theories/DataFacts.v
theories/DictFacts.v
theories/Props_Data.v
theories/Classes.v
theories/Props_Classes.v
theories/Attrs.v
theories/Message.v
theories/TaskLogic.v
theories/Wire.v
theories/FrameFacts.v
theories/HashFacts.v
theories/SignFacts.v
theories/Samples.v
theories/Props_Frame.v
theories/RoundTrip.v
theories/FrameRT.v
theories/LoadFacts.v
theories/EqFacts.v
theories/TripFacts.v
theories/NestFacts.v
theories/Props_Sign.v
theories/SampleTrips.v
theories/Props_RoundTrip.v
theories/ErrFacts.v
theories/TaskFacts.v
theories/TotalFacts.v
theories/CleanFacts.v
theories/VetFacts.v
theories/SampleLoads.v
theories/Props_Load.v
theories/OwnFacts.v
theories/ValidFacts.v
theories/ProtocolFacts.v
theories/EvidenceFacts.v
theories/NoteFacts.v
theories/Props_Tasks.v
theories/Props_Protocol.v
theories/Props_Evidence.v
theories/HonestFacts.v
theories/SampleHonest.v
theories/Props_Honest.v
theories/Factories.v
theories/FactoryFacts.v
theories/FactoryTasks.v
theories/Props_Factories.v
theories/Replies.v
theories/ReplyFacts.v
theories/HookFacts.v
theories/Props_Replies.v
theories/KwFacts.v
theories/Props_Keywords.v
theories/SendFacts.v
theories/Props_Send.v
theories/CborSpec.v
theories/CborFloat.v
theories/Props_Cbor.v
theories/LaterFacts.v
theories/TwinFacts.v
theories/Props_Later.v
theories/FlagFacts.v
theories/Props_Flag.v
theories/ReadSpec.v
theories/ReadProofs.v
theories/ReadExact.v
theories/PayFacts.v
theories/AcceptFacts.v
theories/Props_Accept.v
theories/Grants.v
theories/GrantFacts.v
theories/Props_Grants.v
theories/FaultFacts.v
theories/FaultProofs.v
theories/BlameFacts.v
theories/CheckFacts.v
theories/RefuseFacts.v
theories/Props_Refuse.v
theories/Props_Check.v
theories/Props_Fault.v
theories/DisownFacts.v
theories/Props_Owners.v
theories/Threads.v
theories/ThreadFacts.v
theories/ThreadExamples.v
theories/Props_Threads.v
theories/Seeds.v
theories/Props_Seeds.v
theories/Shown.v
theories/Props_Shown.v
theories/Replay.v
theories/Props_Replay.v
theories/Clocks.v
theories/Props_Clocks.v
theories/Rules.v
theories/Props_Rules.v
theories/Given.v
theories/Props_Given.v
theories/Heap.v
theories/HeapFacts.v
theories/Props_Alias.v
theories/HeapDump.v
theories/Props_Resend.v
theories/OmitFacts.v
theories/Props_Omit.v
theories/TamperFacts.v
theories/Props_Tamper.v
theories/EciesTamper.v
theories/Props_Altered.v
theories/NoteTamper.v
theories/Props_OneNote.v
theories/ForwardFacts.v
theories/Props_Forward.v
theories/EquivFacts.v
theories/Props_Equiv.v
theories/EthsigFacts.v
theories/Props_Ethsig.v
theories/SeparateFacts.v
theories/Props_Separate.v
theories/OrderFacts.v
theories/Props_Order.v
theories/ContShown.v
theories/Props_ContShown.v
theories/InsideFacts.v
theories/Props_Inside.v
theories/RelayFacts.v
theories/Props_Relay.v
theories/FilesFacts.v
theories/Props_Files.v
theories/VerifTime.v
theories/Props_VerifTime.v
theories/AddressFacts.v
theories/Props_Address.v
theories/PayeeFacts.v
theories/Props_Payee.v
theories/NoteRaise.v
theories/Props_NoteRaise.v
theories/NoteAnswer.v
theories/Props_NoteAnswer.v
theories/MaskShare.v
theories/Props_MaskShare.v
theories/NoteType.v
theories/Props_NoteType.v
theories/MaskTask.v
theories/Props_MaskTask.v
