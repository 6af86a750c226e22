-Q theories Verif
theories/ByteCrate.v
theories/Types.v
theories/HeaderModel.v
theories/BeaconModel.v
theories/CommandModel.v
theories/CcmModel.v
theories/FrameModel.v
theories/EqModel.v
theories/Aes128.v
theories/RepoTests.v
theories/Spec.v
theories/SecSpec.v
theories/HistorySpec.v
theories/RestartSpec.v
theories/NodeSpec.v
theories/ProofLib.v
theories/HeaderProofs.v
theories/HeaderReadProofs.v
theories/BeaconProofs.v
theories/CommandProofs.v
theories/FrameProofs.v
theories/CcmProofs.v
theories/AesProofs.v
theories/AesPerm.v
theories/SecureProofs.v
theories/PropHeader.v
theories/PropContent.v
theories/PropFrame.v
theories/PropSecure.v
theories/PropReceive.v
theories/PropHistory.v
theories/PropCodec.v
theories/PropDefault.v
theories/PropCcm.v
theories/PropBuffer.v
theories/PropRestart.v
theories/PropApi.v
theories/PropReencode.v
theories/PropStream.v
theories/PropNetwork.v
theories/PropAttacker.v
theories/PropNode.v
theories/PropKeys.v
theories/PropEq.v
theories/PropReflect.v
theories/PropStandard.v
theories/PropCorrupt.v
theories/PropLooks.v
theories/PropIgnored.v
theories/PropReconfig.v
theories/PropGuess.v
theories/HashModel.v
theories/PropHash.v
theories/PropCipher.v
theories/PropShows.v
theories/PropSecret.v
theories/PropForge.v
theories/PropCapacity.v
theories/StatefulModel.v
theories/PropStateful.v
theories/CrashModel.v
theories/PropCrash.v
theories/WriteSpec.v
theories/WriteProofs.v
theories/PropWrite.v
theories/ReadSpec.v
theories/ReadProofs.v
theories/PropRead.v
theories/SerdeModel.v
theories/PropSerde.v
theories/PropTrial.v
theories/PropCopies.v
theories/PropAlias.v
theories/PropPersist.v
theories/PropSequence.v
theories/PropRekey.v
theories/PropOrder.v
theories/PropBuilds.v
theories/PropBinding.v
theories/DebugModel.v
theories/PropDebug.v
