-Q theories Verif

theories/Base.v
theories/Scalar.v
theories/External.v
theories/ModelProofs.v
theories/Fermat.v
theories/PrimeL.v
theories/Algebra.v
theories/BaseFacts.v
theories/Toy.v
theories/SpecProofs.v
theories/ProofFacts.v
theories/Malleability.v
theories/PropertiesProofs.v
theories/ModelErrors.v
theories/ModelAmacs.v
theories/ModelPrims.v
theories/ModelCredential.v
theories/ModelIssuer.v
theories/ModelUser.v
theories/ModelPhone.v
theories/ModelSignal.v
theories/Spec.v
theories/MacFacts.v
theories/IssueFacts.v
theories/ShowFacts.v
theories/SignalFacts.v
theories/PropertiesMac.v
theories/PropertiesIssue.v
theories/PropertiesShow.v
theories/PhoneFacts.v
theories/PropertiesPhone.v
theories/PropertiesSignal.v
theories/PropertiesAnonymity.v
theories/Polynomials.v
theories/SpecGame.v
theories/GameFacts.v
theories/PropertiesGame.v
theories/PropertiesUniform.v
theories/CodecFacts.v
theories/CompositeFacts.v
theories/SpecCodec.v
theories/PropertiesCodec.v
theories/CreatedFacts.v
theories/ModelFfi.v
theories/SpecFfi.v
theories/FfiFacts.v
theories/PropertiesFfi.v
theories/ModelSerde.v
theories/ModelWasm.v
theories/SpecSerde.v
theories/PropertiesSerde.v
theories/ModelSwift.v
theories/SpecSwift.v
theories/PropertiesSwift.v
theories/ModelDrop.v
theories/PropertiesDrop.v
theories/SpecRandomness.v
theories/PropertiesRandomness.v
theories/ModelMacros.v
theories/SpecMacros.v
theories/PropertiesMacros.v
theories/ModelGlue.v
theories/PropertiesGlue.v
theories/ModelTests.v
theories/PropertiesTests.v
theories/ModelTestsFfi.v
theories/PropertiesTestsFfi.v
theories/ModelBuildTest.v
theories/PropertiesBuildTest.v
theories/SpecOracle.v
theories/OracleFacts.v
theories/PropertiesOracle.v
theories/ModelMemory.v
theories/PropertiesMemory.v
theories/PropertiesRevealed.v
theories/SpecPresent.v
theories/PresentFacts.v
theories/PropertiesPresent.v
theories/SpecErrors.v
theories/PropertiesErrors.v
theories/ModelDisplay.v
theories/PropertiesDisplay.v
theories/ModelOps.v
theories/PropertiesOps.v
theories/SpecOverheard.v
theories/OverheardFormal.v
theories/OverheardFacts.v
theories/OverheardGame.v
theories/OverheardTrace.v
theories/PropertiesOverheard.v
theories/SpecObserve.v
theories/PropertiesObserve.v
theories/SpecFork.v
theories/ForkFacts.v
theories/PropertiesFork.v
theories/HeavyFacts.v
theories/PropertiesJoint.v
theories/SpecBlocks.v
theories/PropertiesBlocks.v
theories/SpecCoins.v
theories/PropertiesCoins.v
theories/SpecCalls.v
theories/PropertiesCalls.v
theories/SpecElgamal.v
theories/ElgamalFacts.v
theories/PropertiesElgamal.v
theories/SpecHistory.v
theories/PropertiesHistory.v
theories/SpecByteHistory.v
theories/PropertiesByteHistory.v
theories/SpecBytes.v
theories/PropertiesBytes.v
theories/ModelTiming.v
theories/SpecTiming.v
theories/TimingFacts.v
theories/PropertiesTiming.v
theories/PropertiesDocs.v
theories/SpecWork.v
theories/PropertiesWork.v
theories/SpecStrangers.v
theories/PropertiesStrangers.v
theories/ModelDerived.v
theories/SpecDerived.v
theories/PropertiesDerived.v
theories/SpecDenial.v
theories/PropertiesDenial.v
theories/SpecSeeds.v
theories/PropertiesSeeds.v
theories/SpecMobile.v
theories/PropertiesMobile.v
theories/ModelThread.v
theories/SpecReads.v
theories/PropertiesReads.v
theories/SpecScript.v
theories/PropertiesScript.v
theories/ModelPool.v
theories/SpecPool.v
theories/PropertiesPool.v
theories/SpecRobust.v
theories/PropertiesRobust.v
theories/SpecMarked.v
theories/PropertiesMarked.v
theories/SpecConfusion.v
theories/PropertiesConfusion.v
theories/ModelTimingFfi.v
theories/SpecTimingFfi.v
theories/TimingFfiFacts.v
theories/PropertiesTimingFfi.v
theories/ModelRoster.v
theories/SpecRoster.v
theories/PropertiesRoster.v
theories/SpecMany.v
theories/PropertiesMany.v
theories/SpecRare.v
theories/PropertiesRare.v
theories/SpecLevel.v
theories/PropertiesLevel.v
theories/ModelElectron.v
theories/PropertiesElectron.v
theories/SpecLeak.v
theories/PropertiesLeak.v
theories/ModelLeft.v
theories/SpecSequence.v
theories/PropertiesSequence.v
theories/SpecTrapdoor.v
theories/PropertiesTrapdoor.v
theories/SpecBuilds.v
theories/BuildFacts.v
theories/PropertiesBuilds.v
theories/SpecBlind.v
theories/PropertiesBlind.v
theories/SpecSearch.v
theories/PropertiesSearch.v
theories/PropertiesBuildsSwift.v
theories/SpecTheft.v
theories/PropertiesTheft.v
