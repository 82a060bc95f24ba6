-Q theories Verif
theories/Base.v
theories/Base64.v
theories/Base64Proofs.v
theories/Codes.v
theories/NumFmt.v
theories/Types.v
theories/KeyConf.v
theories/State.v
theories/Db.v
theories/Processor.v
theories/Spec.v
theories/SpecSig.v
theories/StateProofs.v
theories/LogProofs.v
theories/LogTheorems.v
theories/LogTheorems2.v
theories/SigProofs.v
theories/Demo.v
theories/Prop_State.v
theories/Prop_Sig.v
theories/SpecProc.v
theories/ProcProofs.v
theories/ProcProofs2.v
theories/ProcProofs3.v
theories/Prop_Proc.v
theories/SpecCodec.v
theories/CodecProofs.v
theories/CodecProofs2.v
theories/Prop_Codec.v
theories/Prog.v
theories/ProgProofs.v
theories/Sled.v
theories/SledProofs.v
theories/SpecStore.v
theories/Crash.v
theories/StoreProofs.v
theories/CrashProofs.v
theories/Conc.v
theories/ConcProofs.v
theories/Prop_Store.v
theories/Cesr.v
theories/SpecCesr.v
theories/CesrProofs.v
theories/CesrProofs2.v
theories/CesrProofs3.v
theories/Prop_Cesr.v
theories/NumProofs.v
theories/Version.v
theories/Prop_Version.v
theories/Message.v
theories/Prop_Message.v
theories/SpecQuery.v
theories/QueryProofs.v
theories/Prop_Query.v
theories/ReplyStore.v
theories/ReplyStoreProofs.v
theories/Prop_ReplyStore.v
theories/Keri.v
theories/SpecKeri.v
theories/KeriProofs.v
theories/KeriProofs2.v
theories/Prop_Keri.v
theories/Json.v
theories/JsonRead.v
theories/JsonProofs.v
theories/SpecJson.v
theories/JsonProofs2.v
theories/JsonProofs3.v
theories/JsonProofs4.v
theories/JsonProofs5.v
theories/JsonProofs6.v
theories/JsonProofs7.v
theories/JsonProofs8.v
theories/JsonProofs9.v
theories/JsonProofs10.v
theories/Prop_Json.v
theories/Prop_Json2.v
theories/Prop_Json3.v
theories/Prop_Json4.v
theories/ConvergeProofs.v
theories/Prop_Converge.v
theories/Async.v
theories/Prop_Async.v
theories/SpecRules.v
theories/AcceptProofs.v
theories/Prop_Accept.v
theories/Builder.v
theories/SpecBuild.v
theories/BuildProofs.v
theories/Prop_Build.v
theories/SpecBind.v
theories/BindProofs.v
theories/TakeoverProofs.v
theories/Prop_Bind.v
theories/SpecHonest.v
theories/HonestProofs.v
theories/Prop_Honest.v
theories/SpecRules2.v
theories/RulesProofs.v
theories/Prop_Rules.v
theories/SpecHistory.v
theories/HistoryProofs.v
theories/Prop_History.v
theories/PassProofs.v
theories/PassStore.v
theories/Prop_Store2.v
theories/SpecVersion.v
theories/Prop_Version2.v
theories/SpecJsonQ.v
theories/JsonQuery.v
theories/JsonProofs11.v
theories/Prop_JsonQ.v
theories/JsonProofs12.v
theories/Prop_JsonQ2.v
theories/Prop_JsonQ3.v
theories/SpecArith.v
theories/Arith.v
theories/ArithProofs.v
theories/Prop_Arith.v
theories/SpecWhole.v
theories/WholeProofs.v
theories/WholeProofs2.v
theories/Prop_Whole.v
theories/Threads.v
theories/SpecThreads.v
theories/ThreadProofs.v
theories/Prop_Threads.v
theories/SpecGrammar.v
theories/GrammarProofs.v
theories/GrammarProofs2.v
theories/GrammarProofs3.v
theories/Prop_Grammar.v
theories/SpecSchema.v
theories/SchemaProofs.v
theories/SchemaProofs2.v
theories/Prop_Schema.v
theories/SpecSchema2.v
theories/SchemaProofs3.v
theories/Prop_Schema2.v
theories/SpecCesr2.v
theories/CesrProofs4.v
theories/CesrProofs5.v
theories/CesrProofs6.v
theories/Prop_Cesr2.v
theories/SpecRespond.v
theories/RespondProofs.v
theories/Prop_Respond.v
theories/HandshakeProofs.v
theories/Prop_Handshake.v
theories/Prop_Answer.v
theories/Prop_Sizes.v
theories/Cbor.v
theories/CborProofs.v
theories/EventStore.v
theories/SpecEventStore.v
theories/EventStoreProofs.v
theories/Prop_EventStore.v
theories/SpecOwn.v
theories/OwnProofs.v
theories/Prop_Own.v
theories/ReceiptStore.v
theories/SpecReceiptStore.v
theories/ReceiptStoreProofs.v
theories/Prop_ReceiptStore.v
theories/CborWire.v
theories/SpecCborWire.v
theories/CborWireProofs.v
theories/Prop_CborWire.v
theories/Ask.v
theories/SpecAsk.v
theories/Prop_Ask.v
theories/Mixed.v
theories/MixedProofs.v
theories/Prop_Mixed.v
theories/DamageProofs.v
theories/Prop_Damage.v
theories/Manager.v
theories/SpecManager.v
theories/ManagerProofs.v
theories/Prop_Manager.v
theories/SpecDelegate.v
theories/DelegateProofs.v
theories/Prop_Delegate.v
theories/Keys.v
theories/SpecKeys.v
theories/Prop_Keys.v
theories/Prop_Digest.v
theories/Blake3.v
theories/Ed25519.v
theories/Clock.v
theories/Replay.v
theories/ReplayData.v
theories/ReplayProcess.v
theories/ReplayReply.v
theories/ReplayTests.v
theories/Prop_Clock.v
theories/Desk.v
theories/SpecDesk.v
theories/DeskProofs.v
theories/DeskProofs2.v
theories/Prop_Desk.v
theories/SpecThreshold.v
theories/Prop_Threshold.v
theories/SpecQuorum.v
theories/Prop_Quorum.v
theories/SpecShared.v
theories/SharedProofs.v
theories/Prop_Shared.v
theories/Trial.v
theories/SpecTrial.v
theories/TrialProofs.v
theories/Prop_Trial.v
theories/Receipts.v
theories/SpecReceipts.v
theories/ReceiptsProofs.v
theories/Prop_Receipts.v
theories/Weights.v
theories/SpecWeights.v
theories/Prop_Weights.v
theories/SpecDeclared.v
theories/Prop_Declared.v
theories/SpecAncestry.v
theories/Prop_Ancestry.v
theories/Order.v
theories/SpecOrder.v
theories/Prop_Order.v
theories/SpecCborSize.v
theories/Prop_CborSize.v
