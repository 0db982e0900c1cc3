-Q theories Verif
theories/Base/Outcome.v
theories/Base/Fp.v
theories/Base/Params.v
theories/Base/Algebra.v
theories/Base/Instances.v
theories/Model/Transcript.v
theories/Model/LinComb.v
theories/Model/Prog.v
theories/Model/VectorPoly.v
theories/Model/IPP.v
theories/Model/Prover.v
theories/Model/Verifier.v
theories/Model/Weights.v
theories/Spec/R1CS.v
theories/Spec/Sim.v
theories/Spec/Session.v
theories/Spec/Protocol.v
theories/Proofs/IPPProofs.v
theories/Proofs/LinCombProofs.v
theories/Proofs/RunProofs.v
theories/Proofs/ExtProofs.v
theories/Proofs/FlattenProofs.v
theories/Proofs/VerifyProofs.v
theories/Proofs/ProveProofs.v
theories/Proofs/RoundTrip.v
theories/Spec/Handed.v
theories/Spec/Callbacks.v
theories/Proofs/HandedProofs.v
theories/Proofs/RootProofs.v
theories/Proofs/CircuitProofs.v
theories/Spec/IPPSpec.v
theories/Spec/Extractor.v
theories/Spec/Log.v
theories/Proofs/IPPMore.v
theories/Proofs/ExtractProofs.v
theories/Proofs/VerdictProofs.v
theories/Proofs/LogProofs.v
theories/Spec/Verdict.v
theories/Spec/Frame.v
theories/Proofs/FrozenHeart.v
theories/Proofs/SyncMore.v
theories/Proofs/CircuitMain.v
theories/Props/Demo.v
theories/Props/CircuitProps.v
theories/Proofs/IPPMain.v
theories/Props/IPPProps.v
theories/Proofs/R1CSMain.v
theories/Props/R1CSProps.v
theories/Model/Gadgets.v
theories/Spec/Gadget.v
theories/Proofs/GadgetTools.v
theories/Proofs/GadgetEnd.v
theories/Spec/Cheats.v
theories/Proofs/GadgetBasic.v
theories/Proofs/GadgetComplete.v
theories/Proofs/GadgetPrograms.v
theories/Proofs/GadgetMain.v
theories/Props/GadgetProps.v
theories/Model/Hash.v
theories/Spec/HashSpec.v
theories/Proofs/HashTools.v
theories/Proofs/HashSound.v
theories/Proofs/HashComplete.v
theories/Proofs/HashPrograms.v
theories/Spec/HashCheats.v
theories/Proofs/NoCommit.v
theories/Proofs/HashMain.v
theories/Props/HashProps.v
theories/Model/Merkle.v
theories/Spec/MerkleSpec.v
theories/Proofs/MerkleTools.v
theories/Proofs/MerkleTree.v
theories/Proofs/MerkleBind.v
theories/Proofs/MerkleMain.v
theories/Props/TreeProps.v
theories/Model/MerkleGadget.v
theories/Spec/OpeningSpec.v
theories/Proofs/MerkleSound.v
theories/Proofs/MerkleComplete.v
theories/Proofs/MerkleOpen.v
theories/Props/MerkleProps.v
theories/Model/Randomizer.v
theories/Proofs/Utils.v
theories/Proofs/RandomizerMap.v
theories/Spec/RandomizerSpec.v
theories/Proofs/RandomizerSound.v
theories/Proofs/RandomizerComplete.v
theories/Proofs/RandomizerMain.v
theories/Props/UtilsProps.v
theories/Props/RandomizerProps.v
theories/Spec/R1CSTree.v
theories/Spec/R1CSExtractor.v
theories/Proofs/InterpProofs.v
theories/Proofs/RepProofs.v
theories/Proofs/R1CSExtract.v
theories/Proofs/R1CSAccepted.v
theories/Proofs/TreeCheck.v
theories/Props/SoundProps.v
theories/Model/PoseidonConstants.v
theories/Model/PoseidonConstantsBn254.v
theories/Model/PoseidonConstantsSecp256k1.v
theories/Model/PoseidonConstantsEd25519.v
theories/Model/PoseidonNew.v
theories/Spec/PoseidonSpec.v
theories/Proofs/Fermat.v
theories/Proofs/Pocklington.v
theories/Proofs/Cauchy.v
theories/Proofs/PoseidonMain.v
theories/Proofs/PoseidonBijection.v
theories/Proofs/PoseidonBn254.v
theories/Proofs/CurvePrimes.v
theories/Props/PoseidonProps.v
theories/Spec/Indist.v
theories/Proofs/WICore.v
theories/Proofs/WIShift.v
theories/Proofs/WIMain.v
theories/Props/IndistProps.v
theories/Spec/Knowledge.v
theories/Proofs/HonestTree.v
theories/Proofs/Recover.v
theories/Proofs/KernelTools.v
theories/Proofs/KernelGadgets.v
theories/Proofs/KernelHash.v
theories/Proofs/KernelMerkle.v
theories/Proofs/KernelRandomizer.v
theories/Proofs/KnowledgeMain.v
theories/Proofs/AnswerMain.v
theories/Props/KnowledgeProps.v
theories/Spec/Compose.v
theories/Proofs/ComposeMain.v
theories/Props/ComposeProps.v
theories/Spec/Simulator.v
theories/Proofs/ZKMain.v
theories/Proofs/ZKAccepted.v
theories/Props/ZKProps.v
theories/Spec/Challenges.v
theories/Spec/Games.v
theories/Proofs/TreeCount.v
theories/Proofs/TreeBuild.v
theories/Proofs/GameInteractive.v
theories/Proofs/OracleCount.v
theories/Proofs/QueryProofs.v
theories/Proofs/GameOracle.v
theories/Proofs/HonestStrategy.v
theories/Proofs/OracleVerify.v
theories/Proofs/OracleZero.v
theories/Proofs/OracleCode.v
theories/Proofs/OracleHonest.v
theories/Props/GameProps.v
theories/Spec/GadgetGames.v
theories/Proofs/SameCircuit.v
theories/Proofs/GadgetError.v
theories/Props/AdaptiveProps.v
theories/Spec/RomSim.v
theories/Spec/RomSession.v
theories/Proofs/RomLink.v
theories/Proofs/RomCount.v
theories/Proofs/RomZK.v
theories/Props/RomZKProps.v
theories/Proofs/RomSession.v
theories/Spec/RomComplete.v
theories/Proofs/HonestRounds.v
theories/Proofs/OracleWeight.v
theories/Proofs/RomComplete.v
theories/Proofs/RomCompleteSession.v
theories/Props/SessionZKProps.v
theories/Spec/TwoPhase.v
theories/Proofs/OracleGood.v
theories/Proofs/TwoPhaseTree.v
theories/Proofs/QueryTwo.v
theories/Proofs/TwoPhaseGame.v
theories/Proofs/TwoPhaseCode.v
theories/Proofs/TwoPhaseHonest.v
theories/Props/TwoPhaseProps.v
theories/Spec/RomTwo.v
theories/Proofs/RomTwo.v
theories/Props/RomTwoProps.v
theories/Spec/WeightSpec.v
theories/Proofs/WeightProofs.v
theories/Props/WeightProps.v
theories/Spec/CircuitSize.v
theories/Proofs/SizeTools.v
theories/Proofs/SizeGadgets.v
theories/Proofs/SizeMerkle.v
theories/Proofs/SizeMain.v
theories/Props/SizeProps.v
theories/Spec/Behaviour.v
theories/Proofs/TotalTools.v
theories/Proofs/TotalGadgets.v
theories/Proofs/TotalOpenings.v
theories/Proofs/TotalVerify.v
theories/Proofs/TotalRandomizer.v
theories/Proofs/TotalMain.v
theories/Props/TotalProps.v
theories/Spec/Attempt.v
theories/Proofs/AttemptTools.v
theories/Proofs/AttemptProve.v
theories/Proofs/AttemptMain.v
theories/Proofs/AttemptTwo.v
theories/Props/AttemptProps.v
theories/Props/AttemptTwoProps.v
theories/Spec/Unique.v
theories/Proofs/UniqueMain.v
theories/Props/UniqueProps.v
theories/Proofs/ChallengeBytes.v
theories/Proofs/ChallengeMain.v
theories/Props/RomCompleteProps.v
theories/Props/ChallengeProps.v
theories/Spec/IPPGame.v
theories/Proofs/IppGame.v
theories/Props/IPPGameProps.v
theories/Spec/RomCompleteTwo.v
theories/Proofs/RomCompleteTwo.v
theories/Props/RomCompleteTwoProps.v
theories/Proofs/RomZKCode.v
theories/Props/RomZKCodeProps.v
theories/Spec/IPPVerdict.v
theories/Proofs/IppVerdict.v
theories/Props/IPPVerdictProps.v
theories/Spec/IPPComplete.v
theories/Proofs/IppComplete.v
theories/Props/IPPCompleteProps.v
