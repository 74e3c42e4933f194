-Q theories Verif

theories/PyBase.v
theories/Messages.v
theories/Validate.v
theories/Parse.v
theories/SpecSchema.v
theories/SchemaFacts.v
theories/RoundTripFacts.v
theories/PropsMessages.v
theories/IdGen.v
theories/IdGenFacts.v
theories/Rawsocket.v
theories/SpecFrames.v
theories/BitFacts.v
theories/RawsocketFacts.v
theories/PropsTransport.v
theories/Serializer.v
theories/SerializerFacts.v
theories/PropsSerializer.v
theories/DictFacts.v
theories/SpecHistory.v
theories/Session.v
theories/SpecSession.v
theories/SessionRun.v
theories/SessionFacts.v
theories/PropsSession.v
theories/Encoding.v
theories/EncodingFacts.v
theories/SpecBase64.v
theories/Base64Facts.v
theories/Auth.v
theories/AuthFacts.v
theories/ToyCrypto.v
theories/PropsAuth.v
theories/Joiner.v
theories/SpecJoiner.v
theories/JoinerFacts.v
theories/PropsJoiner.v
theories/Acceptor.v
theories/SpecAcceptor.v
theories/AcceptorFacts.v
theories/Handshake.v
theories/HandshakeFacts.v
theories/PropsAcceptor.v
theories/PropsHandshake.v
theories/Broker.v
theories/SpecBroker.v
theories/BrokerRun.v
theories/BrokerFacts.v
theories/BrokerTheorems.v
theories/PropsBroker.v
theories/Dealer.v
theories/SpecDealer.v
theories/DealerRun.v
theories/DealerFacts.v
theories/DealerTheorems.v
theories/PropsDealer.v
theories/Network.v
theories/SpecNetwork.v
theories/NetworkFacts.v
theories/NetworkInv.v
theories/NetworkLive.v
theories/PropsNetwork.v
theories/Utf8.v
theories/Utf8Facts.v
theories/CodecBase.v
theories/MsgPack.v
theories/SpecCodec.v
theories/CodecFacts.v
theories/MsgPackFacts.v
theories/Cbor.v
theories/CborFacts.v
theories/Json.v
theories/JsonBytes.v
theories/SpecJsonBytes.v
theories/JsonBytesFacts.v
theories/SpecJsonText.v
theories/JsonFacts.v
theories/Float.v
theories/FloatFacts.v
theories/CodecOpen.v
theories/CodecOpenFacts.v
theories/Codecs.v
theories/ExtendFacts.v
theories/DomainFacts.v
theories/CodecsFacts.v
theories/LimitFacts.v
theories/PropsCodec.v
theories/JsonTextFacts.v
theories/PropsLimit.v
theories/CodecVectors.v
theories/SpecE2E.v
theories/HandshakeCodec.v
theories/StreamFacts.v
theories/PropsE2E.v
theories/Helpers.v
theories/SpecHelpers.v
theories/HelpersFacts.v
theories/PropsHelpers.v
theories/RepoTests.v
theories/RepoTestsState.v
theories/Sha2.v
theories/Ed25519.v
theories/CryptoVectors.v
theories/Sha2Vectors.v
theories/Ed25519Vectors.v
theories/SpecCrypto.v
theories/SpecSha2.v
theories/Sha2Facts.v
theories/CryptoFacts.v
theories/SpecCra.v
theories/CraFacts.v
theories/PrimeFacts.v
theories/EdwardsFacts.v
theories/FieldFacts.v
theories/Ed25519Facts.v
theories/SignatureFacts.v
theories/SpecEd25519.v
theories/Rfc8032Facts.v
theories/CryptosignFacts.v
theories/PropsEd25519.v
theories/PropsCrypto.v
theories/PropsCra.v
theories/NetworkOrigin.v
theories/NetworkFlow.v
theories/NetworkDelivery.v
theories/NetworkOnce.v
theories/PropsFlow.v
theories/ByteNetwork.v
theories/SpecByteNetwork.v
theories/ByteNetworkFacts.v
theories/PropsByteNetwork.v
theories/PropsOrigin.v
theories/SpecOrder.v
theories/NetworkOrder.v
theories/PropsOrder.v
theories/SpecByteFlow.v
theories/ByteFlowFacts.v
theories/PropsByteFlow.v
theories/HeaderFacts.v
theories/HostileNetwork.v
theories/SpecHostile.v
theories/HostileFacts.v
theories/HostileSim.v
theories/HostileFlow.v
theories/HostileLive.v
theories/SpecHostileHold.v
theories/HostileHold.v
theories/SpecHostileRest.v
theories/HostileRest.v
theories/PropsHostile.v
theories/PropsHostileRest.v
theories/SpecRest.v
theories/NetworkRest.v
theories/SpecHold.v
theories/NetworkHold.v
theories/PropsRest.v
theories/PropsLocal.v
theories/SpecFormat.v
theories/SpecCbor.v
theories/SpecMsgPack.v
theories/SpecJson.v
theories/FormatFacts.v
theories/CborFormat.v
theories/MsgPackFormat.v
theories/NearestFacts.v
theories/JsonFormat.v
theories/FormatMessages.v
theories/PropsFormats.v
theories/SpecPayload.v
theories/PayloadFacts.v
theories/PropsPayload.v
theories/SpecSpelling.v
theories/SpellingFacts.v
theories/PropsSpelling.v
theories/SpecWeight.v
theories/WeightFacts.v
theories/PropsWeight.v
theories/SpecRepr.v
theories/ReprFacts.v
theories/PropsRepr.v
theories/SizeFacts.v
theories/SizeNetwork.v
theories/PropsSize.v
theories/OpenFacts.v
theories/PropsOpen.v
theories/SpecRejected.v
theories/RejectedFacts.v
theories/PropsRejected.v
theories/SpecRename.v
theories/RenameFacts.v
theories/PropsRename.v
theories/SpecRouter.v
theories/RouterFacts.v
theories/PropsRouter.v
theories/Random.v
theories/SpecRandom.v
theories/RandomFacts.v
theories/PropsRandom.v
theories/SpecKeys.v
theories/KeysFacts.v
theories/PropsKeys.v
theories/SpecAlike.v
theories/AlikeFacts.v
theories/PropsAlike.v
theories/SpecReorder.v
theories/ReorderFacts.v
theories/PropsReorder.v
theories/TextLimit.v
theories/TextLimitFacts.v
theories/PropsTextLimit.v
