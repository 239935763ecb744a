-Q theories Verif
theories/Base.v
theories/BitSpec.v
theories/BufioModel.v
theories/BitsProofs.v
theories/BytesSpec.v
theories/BytesProofs.v
theories/GolombProofs.v
theories/PropertiesBufio.v
theories/BitCursorProofs.v
theories/PropertiesCursor.v
theories/CollectionsModel.v
theories/CollectionsSpec.v
theories/RingProofs.v
theories/RetainProofs.v
theories/LinkedListProofs.v
theories/StaleProofs.v
theories/RefCountProofs.v
theories/PropertiesCollections.v
theories/BlockModel.v
theories/BlockSpec.v
theories/HeapProofs.v
theories/DirectProofs.v
theories/RBProofs.v
theories/StreamsSpec.v
theories/StreamsProofs.v
theories/PipelineProofs.v
theories/PropertiesBlocks.v
theories/SafeSpec.v
theories/SafeProofs.v
theories/PropertiesSafe.v
theories/AvailSpec.v
theories/AvailProofs.v
theories/PropertiesAvail.v
theories/RbFetchSpec.v
theories/RbFetchProofs.v
theories/PropertiesRbFetch.v
theories/RbLedgerSpec.v
theories/RbLedgerProofs.v
theories/PropertiesRbLedger.v
theories/CapModel.v
theories/CapProofs.v
theories/PropertiesCap.v
theories/PipeModel.v
theories/PipeSpec.v
theories/PipeProofs.v
theories/PropertiesPipe.v
theories/RoomSpec.v
theories/RoomProofs.v
theories/PropertiesRoom.v
theories/NaluModel.v
theories/NaluSpec.v
theories/NaluProofs.v
theories/SplitProofs.v
theories/SplitExact.v
theories/AvccProofs.v
theories/AnnexbProofs.v
theories/StretchSpec.v
theories/StretchProofs.v
theories/HevcMp4Proofs.v
theories/PropertiesNalu.v
theories/RecordModel.v
theories/CursorProofs.v
theories/RecordSpec.v
theories/RecordProofs.v
theories/M4vcProofs.v
theories/HevcRecordProofs.v
theories/HevcListsSpec.v
theories/HevcListsProofs.v
theories/MarshalProofs.v
theories/PropertiesMarshal.v
theories/PropertiesRecord.v
theories/AacModel.v
theories/AacSpec.v
theories/AacProofs.v
theories/PropertiesAac.v
theories/UtilModel.v
theories/PropertiesUtil.v
theories/FloatModel.v
theories/FloatProofs.v
theories/ConvertProofs.v
theories/PropertiesConvert.v
theories/SpsModel.v
theories/SpsSpec.v
theories/SpsProofs.v
theories/PropertiesSps.v
theories/SpsGrammarSpec.v
theories/SpsGrammarProofs.v
theories/PropertiesSpsGrammar.v
theories/PacketModel.v
theories/PacketProofs.v
theories/PropertiesPacket.v
theories/RoundProofs.v
theories/PropertiesRound.v
theories/DemuxModel.v
theories/DemuxProofs.v
theories/PropertiesDemux.v
theories/LifecycleProofs.v
theories/PropertiesLifecycle.v
theories/DeliverySpec.v
theories/DeliveryProofs.v
theories/PropertiesDelivery.v
theories/HandlerModel.v
theories/HandlerSpec.v
theories/HandlerProofs.v
theories/PropertiesHandler.v
theories/TrackSpec.v
theories/TrackProofs.v
theories/PropertiesTracks.v
theories/LaneProofs.v
theories/PropertiesLanes.v
theories/SystemSpec.v
theories/SystemProofs.v
theories/PropertiesSystem.v
theories/SystemGrowSpec.v
theories/SystemGrowProofs.v
theories/PropertiesSystemGrow.v
theories/PropertiesDeliveryOrder.v
theories/PropertiesParams.v
theories/HandlerFaultModel.v
theories/HandlerFaultProofs.v
theories/PropertiesHandlerFault.v
theories/BlockQueueModel.v
theories/BlockQueueProofs.v
theories/PropertiesBlockQueue.v
theories/DemuxPtrModel.v
theories/DemuxPtrProofs.v
theories/PropertiesDemuxPtr.v
theories/RecordingModel.v
theories/RecordingProofs.v
theories/SmallProofs.v
theories/PropertiesRecording.v
theories/RecordStateModel.v
theories/RecordStateSpec.v
theories/RecordStateProofs.v
theories/PropertiesRecordState.v
theories/PropertiesCodecAny.v
theories/IntakeSpec.v
theories/IntakeProofs.v
theories/RecordedSpec.v
theories/RecordedProofs.v
theories/PropertiesIntake.v
theories/OpenedSpec.v
theories/OpenedProofs.v
theories/PropertiesOpened.v
theories/FlvRecordSpec.v
theories/FlvRecordProofs.v
theories/PropertiesFlvRecord.v
theories/RecordSafeSpec.v
theories/RecordSafeProofs.v
theories/PropertiesRecordSafe.v
theories/PropertiesUnitsOut.v
theories/ArrivalSpec.v
theories/ArrivalProofs.v
theories/PropertiesArrival.v
theories/DetermSpec.v
theories/DetermProofs.v
theories/PropertiesDeterm.v
theories/PropertiesClock.v
theories/FlvSafeSpec.v
theories/FlvSafeProofs.v
theories/PropertiesFlvSafe.v
theories/RecordChoiceProofs.v
theories/PropertiesRecordChoice.v
theories/RemuxSpec.v
theories/RemuxProofs.v
theories/PropertiesRemux.v
theories/BackmuxSpec.v
theories/PropertiesBackmux.v
theories/LoadSpec.v
theories/LoadProofs.v
theories/PropertiesLoad.v
theories/BorrowSpec.v
theories/BorrowProofs.v
theories/PropertiesBorrow.v
theories/ReentModel.v
theories/ReentProofs.v
theories/PropertiesReent.v
theories/RelabelSpec.v
theories/RelabelProofs.v
theories/PropertiesRelabel.v
theories/AloneSpec.v
theories/AloneProofs.v
theories/PropertiesAlone.v
theories/BlindSpec.v
theories/BlindProofs.v
theories/PropertiesBlind.v
theories/PropertiesReuse.v
theories/AloneFileProofs.v
theories/PropertiesAloneFile.v
theories/SharedPoolModel.v
theories/SharedPoolProofs.v
theories/PropertiesSharedPool.v
theories/PropertiesTurn.v
theories/ReturnsProofs.v
theories/PropertiesReturns.v
theories/PropertiesRefusal.v
theories/PropertiesTrailing.v
theories/LendFileModel.v
theories/LendFileProofs.v
theories/PropertiesLendFile.v
theories/LoggerModel.v
theories/LoggerProofs.v
theories/PropertiesLogger.v
theories/JoinProofs.v
theories/PropertiesJoin.v
theories/PropertiesField.v
theories/PropertiesTicks.v
theories/KeyProofs.v
theories/PropertiesKey.v
theories/GolombSourceModel.v
theories/GolombSourceSpec.v
theories/PropertiesGolombSource.v
theories/RecoverModel.v
theories/RecoverProofs.v
theories/PropertiesRecover.v
theories/BlockRecoverModel.v
theories/BlockRecoverProofs.v
theories/PropertiesBlockRecover.v
theories/HandlerRecoverSpec.v
theories/HandlerRecoverModel.v
theories/HandlerRecoverProofs.v
theories/PropertiesHandlerRecover.v
theories/RecordRecoverModel.v
theories/RecordRecoverProofs.v
theories/PropertiesRecordRecover.v
theories/ChainSpec.v
theories/ChainProofs.v
theories/PropertiesChain.v
theories/CollRecoverModel.v
theories/CollRecoverProofs.v
theories/PropertiesCollRecover.v
theories/RewriteProofs.v
theories/PropertiesRewrite.v
theories/PropertiesJoinMp4.v
theories/ModelTests.v
