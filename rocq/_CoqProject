-Q theories Verif
theories/Base/Bytes.v
theories/Base/BytesFacts.v
theories/Model/Tl.v
theories/Model/Scheme.v
theories/Model/ProtoAdnl.v
theories/Model/ProtoRldp.v
theories/Model/ProtoDht.v
theories/Model/ProtoOverlay.v
theories/Model/History.v
theories/Model/HistoryConc.v
theories/Spec/Codec.v
theories/Proof/TlFacts.v
theories/Proof/ProtoFacts.v
theories/Proof/PacketFacts.v
theories/Props/PropsCodec.v
theories/Spec/HistorySpec.v
theories/Proof/HistoryFacts.v
theories/Proof/HistoryConcFacts.v
theories/Props/PropsHistory.v
theories/Base/Res.v
theories/Model/Crypto.v
theories/Model/Encryption.v
theories/Model/Channel.v
theories/Model/Handshake.v
theories/Spec/CryptoSpec.v
theories/Spec/ChannelSpec.v
theories/Proof/CipherFacts.v
theories/Props/PropsCipher.v
theories/Model/Transfer.v
theories/Model/Peer.v
theories/Model/AdnlNode.v
theories/Spec/TransferSpec.v
theories/Spec/NodeSpec.v
theories/Proof/TransferFacts.v
theories/Proof/SplitFacts.v
theories/Proof/HearFacts.v
theories/Props/PropsTransfer.v
theories/Proof/NodeFacts.v
theories/Spec/Sample.v
theories/Proof/NodeAuth.v
theories/Proof/PeerFacts.v
theories/Proof/NodeTables.v
theories/Proof/NodePeers.v
theories/Proof/NodeReset.v
theories/Proof/NodeSize.v
theories/Props/PropsNode.v
theories/Model/PeersSet.v
theories/Spec/PeersSetSpec.v
theories/Model/Keystore.v
theories/Model/Queries.v
theories/Spec/QueriesSpec.v
theories/Model/Subscribers.v
theories/Spec/SubscribersSpec.v
theories/Proof/PeersSetLists.v
theories/Proof/PeersSetFacts.v
theories/Spec/KeystoreSpec.v
theories/Proof/KeystoreFacts.v
theories/Proof/SubscriberFacts.v
theories/Proof/QueryFacts.v
theories/Props/PropsTables.v
theories/Model/Compression.v
theories/Model/Fec.v
theories/Model/RldpTransfer.v
theories/Model/RldpQuery.v
theories/Model/RldpTable.v
theories/Model/RldpLimit.v
theories/Spec/CompressionSpec.v
theories/Spec/FecSpec.v
theories/Spec/RldpSpec.v
theories/Proof/CompressionFacts.v
theories/Proof/FecFacts.v
theories/Proof/RldpParts.v
theories/Proof/RldpInFacts.v
theories/Proof/RldpOutFacts.v
theories/Proof/RldpQueryFacts.v
theories/Proof/RldpTableFacts.v
theories/Props/PropsRldp.v
theories/Model/DhtStorage.v
theories/Spec/DhtSpec.v
theories/Proof/TlBack.v
theories/Proof/DhtStorageFacts.v
theories/Model/DhtBuckets.v
theories/Spec/DistanceSpec.v
theories/Proof/DhtBucketsFacts.v
theories/Model/DhtNode.v
theories/Model/DhtStream.v
theories/Proof/DhtStreamFacts.v
theories/Spec/DhtNodeSpec.v
theories/Proof/DhtNodeFacts.v
theories/Proof/DhtIterFacts.v
theories/Spec/DhtStreamSpec.v
theories/Spec/DhtSample.v
theories/Props/PropsDht.v
theories/Model/OverlayPeers.v
theories/Spec/OverlaySpec.v
theories/Proof/OverlayPeersFacts.v
theories/Spec/OverlaySample.v
theories/Props/PropsOverlay.v
theories/Model/Broadcast.v
theories/Spec/BroadcastSpec.v
theories/Proof/BroadcastFacts.v
theories/Proof/BroadcastAuth.v
theories/Proof/BroadcastLog.v
theories/Proof/BroadcastLive.v
theories/Proof/BroadcastForward.v
theories/Spec/BroadcastSample.v
theories/Proof/BroadcastWitness.v
theories/Props/PropsBroadcast.v
theories/Model/Receiver.v
theories/Spec/ReceiverSpec.v
theories/Proof/ReceiverFacts.v
theories/Props/PropsReceiver.v
theories/Spec/PairSpec.v
theories/Proof/PairWire.v
theories/Proof/PairReceive.v
theories/Proof/PairFacts.v
theories/Props/PropsPair.v
theories/Proof/LocalFacts.v
theories/Model/InPlace.v
theories/Spec/InPlaceSpec.v
theories/Proof/InPlaceFacts.v
theories/Props/PropsInPlace.v
theories/Model/Builder.v
theories/Spec/BuilderSpec.v
theories/Proof/BuilderFacts.v
theories/Props/PropsBuilder.v
theories/Model/OverlayNode.v
theories/Spec/OverlayNodeSpec.v
theories/Proof/OverlayNodeFacts.v
theories/Props/PropsOverlayNode.v
theories/Spec/SignedSpec.v
theories/Proof/SignedFacts.v
theories/Props/PropsSigned.v
theories/Model/NodeQueries.v
theories/Spec/TalkSpec.v
theories/Proof/TalkFacts.v
theories/Props/PropsTalk.v
theories/Model/TransferConc.v
theories/Spec/TransferConcSpec.v
theories/Proof/TransferConcFacts.v
theories/Proof/TransferHonestFacts.v
theories/Proof/TransferTimerFacts.v
theories/Proof/TransferAgainFacts.v
theories/Spec/TransferConcSample.v
theories/Proof/TransferConcSampleFacts.v
theories/Props/PropsTransferConc.v
theories/Model/RldpNode.v
theories/Spec/RldpPairSpec.v
theories/Proof/RldpNodeFacts.v
theories/Proof/RldpPairFacts.v
theories/Spec/RldpPairSample.v
theories/Spec/RldpExchangeSpec.v
theories/Proof/RldpExchange.v
theories/Proof/RldpLiveFacts.v
theories/Proof/RldpOnceFacts.v
theories/Proof/RldpPairWitness.v
theories/Props/PropsRldpPair.v
theories/Proof/RldpReceivedFacts.v
theories/Proof/TransferKeptFacts.v
theories/Proof/ChannelFacts.v
theories/Props/PropsChannel.v
theories/Model/DhtTasks.v
theories/Spec/DhtTaskSpec.v
theories/Proof/DhtTaskFacts.v
theories/Spec/DhtTaskSample.v
theories/Props/PropsDhtTasks.v
theories/Proof/DhtTaskSamples.v
theories/Model/OverlayExchange.v
theories/Spec/OverlayExchangeSpec.v
theories/Proof/OverlayExchangeFacts.v
theories/Proof/OverlayExchangeNet.v
theories/Spec/OverlayExchangeSample.v
theories/Proof/OverlayExchangeSamples.v
theories/Props/PropsOverlayExchange.v
theories/Proof/CutOffFacts.v
theories/Props/PropsCutOff.v
theories/Spec/TlScheme.v
theories/Spec/TlValues.v
theories/Proof/SchemeFacts.v
theories/Proof/SchemeReads.v
theories/Props/PropsScheme.v
theories/Spec/GossipSpec.v
theories/Proof/GossipFacts.v
theories/Spec/GossipSample.v
theories/Proof/GossipSampleFacts.v
theories/Props/PropsGossip.v
theories/Spec/DhtNetSpec.v
theories/Proof/DhtNetFacts.v
theories/Spec/DhtNetSample.v
theories/Proof/DhtNetSamples.v
theories/Props/PropsDhtNet.v
theories/Model/Locks.v
theories/Spec/LocksSpec.v
theories/Proof/LocksFacts.v
theories/Props/PropsLocks.v
theories/Model/Lifecycle.v
theories/Spec/LifecycleSpec.v
theories/Proof/LifecycleFacts.v
theories/Model/Socket.v
theories/Spec/SocketSpec.v
theories/Proof/SocketFacts.v
theories/Model/PeerAddresses.v
theories/Proof/PeerAddressesFacts.v
theories/Props/PropsLifecycle.v
theories/Spec/AddressingSpec.v
theories/Proof/AddressingFacts.v
theories/Props/PropsAddressing.v
theories/Proof/BroadcastSilence.v
theories/Props/PropsSilence.v
theories/Proof/SchemeSearch.v
theories/Model/PeerConc.v
theories/Spec/PeerConcSpec.v
theories/Proof/PeerConcFacts.v
theories/Props/PropsPeerConc.v
theories/Model/TablesConc.v
theories/Spec/TablesConcSpec.v
theories/Proof/TablesConcFacts.v
theories/Props/PropsTablesConc.v
theories/Spec/GossipFecSpec.v
theories/Proof/GossipFecFacts.v
theories/Spec/GossipFecSample.v
theories/Proof/GossipFecSampleFacts.v
theories/Props/PropsGossipFec.v
theories/Spec/ResetSpec.v
theories/Proof/ResetFacts.v
theories/Props/PropsReset.v
theories/Spec/BystanderSpec.v
theories/Proof/BystanderFacts.v
theories/Spec/BystanderSample.v
theories/Proof/BystanderSampleFacts.v
theories/Props/PropsBystander.v
theories/Spec/StackSpec.v
theories/Proof/StackFacts.v
theories/Spec/StackSample.v
theories/Proof/StackLive.v
theories/Spec/StackPlay.v
theories/Props/PropsStack.v
theories/Model/RldpTiming.v
theories/Spec/TimingSpec.v
theories/Proof/TimingFacts.v
theories/Spec/ReturnSpec.v
theories/Proof/RldpReturnFacts.v
theories/Props/PropsTiming.v
theories/Spec/TripSpec.v
theories/Proof/DhtTripFacts.v
theories/Spec/DhtTripSample.v
theories/Proof/DhtTripSamples.v
theories/Props/PropsDhtTrip.v
theories/Model/Layers.v
theories/Spec/LayersSpec.v
theories/Proof/LayersFacts.v
theories/Spec/LayersSample.v
theories/Proof/LayersSamples.v
theories/Props/PropsLayers.v
theories/Spec/OverlayTripSpec.v
theories/Proof/OverlayTripFacts.v
theories/Spec/OverlayTripSample.v
theories/Proof/OverlayTripSamples.v
theories/Props/PropsOverlayTrip.v
theories/Spec/LongSpec.v
theories/Proof/LongFacts.v
theories/Spec/LongSample.v
theories/Proof/LongSamples.v
theories/Props/PropsLong.v
theories/Model/Defaults.v
theories/Model/OverlayApi.v
theories/Spec/DefaultsSpec.v
theories/Proof/DefaultsFacts.v
theories/Proof/DefaultsRldp.v
theories/Props/PropsDefaults.v
