-Q theories Verif
theories/Base.v
theories/BaseFacts.v
theories/Alg.v
theories/AlgFacts.v
theories/TrieModel.v
theories/TreeSpec.v
theories/TreeFacts.v
theories/TrieProofs.v
theories/AlgInst.v
theories/TrieTheorems.v
theories/ExData.v
theories/PropTrie.v
theories/CodecModel.v
theories/VerkleDbModel.v
theories/DbSpec.v
theories/VerkleDbProofs.v
theories/VerkleDbSim.v
theories/DiskLost.v
theories/CodecInst.v
theories/VerkleDbTheorems.v
theories/VerkleDbExamples.v
theories/DiskListing.v
theories/DiskStems.v
theories/CodecTotal.v
theories/CodecTotalInst.v
theories/PropDb.v
theories/BTree.v
theories/WireModel.v
theories/WireSpec.v
theories/WireProofs.v
theories/WireInst.v
theories/PropWire.v
theories/ProofModel.v
theories/ProofSpec.v
theories/PathProofs.v
theories/OpeningProofs.v
theories/OpeningEq.v
theories/VerifierProofs.v
theories/ProofTheorems.v
theories/ProofReject.v
theories/ProofRefute.v
theories/ProofExamples.v
theories/PropProof.v
theories/IpaModel.v
theories/LagrangeSpec.v
theories/IpaSpec.v
theories/IpaProofs.v
theories/LagrangeProofs.v
theories/MultiProofs.v
theories/TranscriptSpec.v
theories/TranscriptProofs.v
theories/CheckProofs.v
theories/IpaTheorems.v
theories/IpaInst.v
theories/PropIpa.v
theories/SoundSpec.v
theories/SoundIpa.v
theories/SoundSum.v
theories/SoundMulti.v
theories/SoundCheck.v
theories/SoundHonest.v
theories/SoundInst.v
theories/PropSound.v
theories/TruthSpec.v
theories/TruthVerifier.v
theories/TruthFacts.v
theories/TruthProofs.v
theories/TruthTheorems.v
theories/TruthRefute.v
theories/TruthInst.v
theories/RatInst.v
theories/PropTruth.v
theories/StatelessModel.v
theories/StatelessSpec.v
theories/SubtreeProofs.v
theories/StatelessProofs.v
theories/HybridProofs.v
theories/StatelessUpdate.v
theories/StatelessTheorems.v
theories/StatelessExact.v
theories/StatelessTruth.v
theories/StatelessForget.v
theories/StatelessCases.v
theories/StatelessExamples.v
theories/PropStateless.v
theories/PropUpdateTruth.v
theories/ChainSpec.v
theories/ChainProofs.v
theories/ChainCases.v
theories/PropChain.v
theories/WitnessSpec.v
theories/WitnessProofs.v
theories/WitnessCases.v
theories/PropWitness.v
theories/MsmModel.v
theories/MsmSpec.v
theories/MsmProofs.v
theories/MsmInst.v
theories/PropMsm.v
theories/FfiModel.v
theories/FfiSpec.v
theories/FfiProofs.v
theories/FfiInst.v
theories/PropFfi.v
theories/ElementModel.v
theories/ElementSpec.v
theories/ElementProofs.v
theories/ElementInst.v
theories/PropElement.v
theories/SpecModel.v
theories/LayoutSpec.v
theories/LayoutProofs.v
theories/LayoutInst.v
theories/PropLayout.v
theories/GoModel.v
theories/GoSpec.v
theories/GoProofs.v
theories/GoTrie.v
theories/PropGo.v
theories/BindModel.v
theories/BindSpec.v
theories/BindProofs.v
theories/BindTrie.v
theories/PropBind.v
theories/ReadSpec.v
theories/ReadProofs.v
theories/CheckTotal.v
theories/CheckRefused.v
theories/FfiTotal.v
theories/FfiTotalInst.v
theories/PropFfiTotal.v
theories/PropCheck.v
theories/DiskProof.v
theories/AccountSpec.v
theories/AccountProofs.v
theories/PropState.v
theories/CurveModel.v
theories/CurveSpec.v
theories/CurveProofs.v
theories/CurveAlg.v
theories/CurveInst.v
theories/PropCurve.v
theories/MsmInt.v
theories/CurveRep.v
theories/RepSpec.v
theories/RepFfi.v
theories/DiskWeak.v
theories/RepDisk.v
theories/Primality.v
theories/Moduli.v
theories/CurveCount.v
theories/CurveOrder.v
theories/OrderCert.v
theories/Bander.v
theories/CrsModel.v
theories/DefaultCrs.v
theories/RealSpec.v
theories/CrsCheck.v
theories/CrsCert.v
theories/CrsProofs.v
theories/HalfCert.v
theories/RealProofs.v
theories/RealInst.v
theories/PropRep.v
theories/PropCrs.v
theories/CollisionSpec.v
theories/CollisionProofs.v
theories/CollisionCases.v
theories/PropCollision.v
theories/CoordSpec.v
theories/Refine.v
theories/RefineDb.v
theories/RootTotal.v
theories/RepRefine.v
theories/RealRefine.v
theories/RefineProof.v
theories/RefineIpa.v
theories/RefineStateless.v
theories/SameProofs.v
theories/KeySetProofs.v
theories/PropKeySet.v
theories/RepProof.v
theories/CoordProofs.v
theories/CreatedFits.v
theories/MidInst.v
theories/CoordInst.v
theories/CoordCases.v
theories/PropCoord.v
theories/RewriteSpec.v
theories/RewriteSim.v
theories/RewriteProofs.v
theories/RewriteFacts.v
theories/RewriteCases.v
theories/PropRewrite.v
theories/RewriteProofSpec.v
theories/RewriteTruth.v
theories/RewriteProver.v
theories/RewriteTold.v
theories/RewriteToldCases.v
theories/PropTold.v
theories/AgreeSpec.v
theories/AgreeProofs.v
theories/AgreeCases.v
theories/AgreeChain.v
theories/AgreeChainCases.v
theories/PropAgree.v
theories/CoordChainSpec.v
theories/CoordChain.v
theories/CoordChainCases.v
theories/PropCoordChain.v
theories/EventSpec.v
theories/EventProofs.v
theories/EventWitness.v
theories/PropEvent.v
theories/UpdHistSpec.v
theories/UpdHistProofs.v
theories/RepHistory.v
theories/RealHistory.v
theories/PropUpdHist.v
theories/JavaSpec.v
theories/JavaTruth.v
theories/PropJava.v
theories/RawModel.v
theories/RawSpec.v
theories/RawProofs.v
theories/RawCases.v
theories/RawVerifyModel.v
theories/RawVerifySpec.v
theories/RawVerifyProofs.v
theories/RawAgree.v
theories/RawCreate.v
theories/RawVerifyCases.v
theories/PropRaw.v
theories/ShaForgeryCert.v
theories/ShaForgery.v
theories/PropRawVerify.v
theories/RefineFfi.v
theories/CoordFfiSpec.v
theories/CoordFfi.v
theories/CoordFfiCases.v
theories/PropCoordFfi.v
theories/Sha256.v
theories/Sha256Cases.v
theories/CoordKeySet.v
theories/CoordKeySetCases.v
theories/PropCoordKeySet.v
theories/CoordWitness.v
theories/CoordWitnessCases.v
theories/PropCoordWitness.v
theories/CoordTold.v
theories/CoordToldCases.v
theories/CoordTruth.v
theories/PropCoordTold.v
theories/TranscriptLabel.v
theories/PropLabel.v
theories/WriteSpec.v
theories/WriteProofs.v
theories/PropWrites.v
