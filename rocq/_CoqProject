-Q theories Verif
theories/Base.v
theories/BaseFacts.v
theories/Wire.v
theories/WireFacts.v
theories/Prims.v
theories/PrimsFacts.v
theories/T_Prims.v
theories/Group.v
theories/GroupFacts.v
theories/Assign.v
theories/SortFacts.v
theories/AssignFacts.v
theories/T_Assign.v
theories/RecordSpec.v
theories/Records.v
theories/Fetch.v
theories/FetchSpec.v
theories/RecordFacts.v
theories/FetchFacts.v
theories/FetchKeep.v
theories/FetchOld.v
theories/DeliverFacts.v
theories/FetchGrow.v
theories/RecordRefute.v
theories/FetchRefute.v
theories/T_Records.v
theories/T_Fetch.v
theories/Conn.v
theories/ConnFacts.v
theories/ConnSync.v
theories/ConnRefute.v
theories/T_Conn.v
theories/Requests.v
theories/RequestSpec.v
theories/RequestFacts.v
theories/RequestBodies.v
theories/RequestFlex.v
theories/RequestPrep.v
theories/RequestRefute.v
theories/T_Requests.v
theories/Responses.v
theories/ResponseSpec.v
theories/ResponseFacts.v
theories/ResponseDecode.v
theories/ResponseDecode2.v
theories/ResponseDecode3.v
theories/ResponseDecode4.v
theories/ResponseRefute.v
theories/T_Responses.v
theories/Producer.v
theories/ProducerSpec.v
theories/ProducerFacts.v
theories/ProducerWire.v
theories/ProducerMulti.v
theories/ProducerRefute.v
theories/ProducerMore.v
theories/T_Producer.v
theories/FetchShort.v
theories/Consumer.v
theories/ConsumerSpec.v
theories/ConsumerFacts.v
theories/ConsumerRefute.v
theories/GrowRun.v
theories/ConsumerStop.v
theories/T_Consumer.v
theories/ErrorCode.v
theories/Gcons.v
theories/GconsSpec.v
theories/GconsFacts.v
theories/GconsLoop.v
theories/GconsRefute.v
theories/T_Gcons.v
theories/Builders.v
theories/BuildersSpec.v
theories/BuildersFacts.v
theories/T_Builders.v
theories/Config.v
theories/ConfigSpec.v
theories/ConfigFacts.v
theories/Acl.v
theories/AclFacts.v
theories/ErrorSpec.v
theories/ErrorFacts.v
theories/Closing.v
theories/ClosingFacts.v
theories/T_Config.v
theories/Brokers.v
theories/BrokersSpec.v
theories/BrokersFacts.v
theories/BrokersMore.v
theories/BrokersLost.v
theories/BrokersRefute.v
theories/T_Brokers.v
theories/TopConsumer.v
theories/TopConsumerSpec.v
theories/TopConsumerFacts.v
theories/TopConsumerRun.v
theories/T_Top.v
theories/Text.v
theories/TextFacts.v
theories/Tools.v
theories/ToolsSpec.v
theories/ToolsFacts.v
theories/T_Tools.v
theories/Http.v
theories/HttpSpec.v
theories/HttpFacts.v
theories/T_Http.v
theories/ReqDecode.v
theories/ReqDecodeFacts.v
theories/ReqDecodeRt.v
theories/ReqDecodeProduce.v
theories/ReqDecodeRefute.v
theories/T_ReqDecode.v
theories/RespEncode.v
theories/RespEncodeSpec.v
theories/RespEncodeFacts.v
theories/RespEncodeBuf.v
theories/MsgSet.v
theories/FetchEncode.v
theories/T_RespEncode.v
theories/EndSpec.v
theories/EndFacts.v
theories/T_End.v
theories/RestartSpec.v
theories/RestartFacts.v
theories/T_Restart.v
theories/Names.v
theories/NamesFacts.v
theories/T_Names.v
theories/Lead.v
theories/RoundSpec.v
theories/RoundFacts.v
theories/T_Round.v
theories/MoreSpec.v
theories/MoreFacts.v
theories/T_More.v
theories/Helper.v
theories/HelperFacts.v
theories/Commands.v
theories/CommandsSpec.v
theories/CommandsFacts.v
theories/T_Commands.v
theories/Calls.v
theories/CallsSpec.v
theories/CallsFacts.v
theories/T_Calls.v
theories/ManySpec.v
theories/ManyFacts.v
theories/ManyEncode.v
theories/T_Many.v
theories/FollowSpec.v
theories/Follow.v
theories/FollowFacts.v
theories/T_Follow.v
theories/SettingsSpec.v
theories/Settings.v
theories/SettingsFacts.v
theories/T_Settings.v
theories/Clock.v
theories/ClockSpec.v
theories/ClockFacts.v
theories/T_Clock.v
theories/HttpApi.v
theories/HttpApiSpec.v
theories/HttpApiFacts.v
theories/T_HttpApi.v
theories/Flags.v
theories/FlagsSpec.v
theories/FlagsFacts.v
theories/T_Flags.v
theories/OldZip.v
theories/T_OldZip.v
theories/CloseTime.v
theories/T_CloseTime.v
theories/Crew.v
theories/CrewFacts.v
theories/T_Crew.v
theories/Locks.v
theories/LocksSpec.v
theories/LocksFacts.v
theories/T_Locks.v
theories/Owners.v
theories/OwnersSpec.v
theories/OwnersFacts.v
theories/T_Owners.v
theories/Lives.v
theories/LivesSpec.v
theories/LivesFacts.v
theories/T_Lives.v
theories/Starting.v
theories/StartingSpec.v
theories/StartingFacts.v
theories/T_Starting.v
theories/Compose.v
theories/ComposeSpec.v
theories/ComposeFacts.v
theories/T_Compose.v
theories/AssignedSpec.v
theories/AssignedFacts.v
theories/T_Assigned.v
theories/CutSpec.v
theories/CutFacts.v
theories/CutDecode.v
theories/T_Cut.v
theories/GroupCommit.v
theories/GroupCommitSpec.v
theories/GroupCommitFacts.v
theories/T_GroupCommit.v
theories/EndGroupFacts.v
theories/T_EndGroup.v
theories/SizeSpec.v
theories/SizeFacts.v
theories/Reserve.v
theories/SizeRefute.v
theories/T_Size.v
theories/Damage.v
theories/T_Damage.v
theories/RecordEnd.v
theories/T_RecordEnd.v
theories/Utf8Spec.v
theories/Shown.v
theories/ShownSpec.v
theories/ShownFacts.v
theories/T_Shown.v
theories/JsonSpec.v
theories/JsonText.v
theories/JsonFacts.v
theories/ShownText.v
theories/ShownEvent.v
theories/JsonLine.v
theories/T_JsonText.v
theories/DeadSpec.v
theories/DeadFacts.v
theories/T_Dead.v
theories/AsksSpec.v
theories/AsksFacts.v
theories/T_Asks.v
theories/AcksSpec.v
theories/AcksFacts.v
theories/T_Acks.v
theories/BulkSpec.v
theories/BulkFacts.v
theories/T_Bulk.v
theories/TroubleSpec.v
theories/TroubleFacts.v
theories/T_Trouble.v
theories/TimeSpec.v
theories/T_Time.v
