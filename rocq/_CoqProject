-Q theories Verif
theories/Base.v
theories/BaseFacts.v
theories/KeccakModel.v
theories/KeccakSpec.v
theories/KeccakProofs.v
theories/CryptoModel.v
theories/CryptoSpec.v
theories/CryptoProofs.v
theories/PropsCrypto.v
theories/Hashes.v
theories/HashesFacts.v
theories/CuckooModel.v
theories/CuckooSpec.v
theories/CuckooCycle.v
theories/CuckooProofs.v
theories/PropsCuckoo.v
theories/LookupTables.v
theories/DagModel.v
theories/DagSpec.v
theories/Trial.v
theories/DagSize.v
theories/TabEthashCache.v
theories/TabEthashDataset.v
theories/TabFiro.v
theories/TabOctopus.v
theories/DagGen.v
theories/PropsDagSize.v
theories/Chunks.v
theories/DagContent.v
theories/PropsDagContent.v
theories/RegModel.v
theories/RegSpec.v
theories/RegProofs.v
theories/PropsRegistry.v
theories/OnceModel.v
theories/OnceProofs.v
theories/PropsConcurrency.v
theories/FileModel.v
theories/FileProofs.v
theories/NameModel.v
theories/NameProofs.v
theories/FileJob.v
theories/FileJobProofs.v
theories/PropsFiles.v
theories/EthashModel.v
theories/EthashSpec.v
theories/EthashProofs.v
theories/PropsEthash.v
theories/ProgpowModel.v
theories/ProgpowSpec.v
theories/ProgpowOps.v
theories/ProgpowProofs.v
theories/ProgpowHash.v
theories/PropsProgpow.v
theories/OctopusModel.v
theories/OctopusSpec.v
theories/OctopusMath.v
theories/OctopusProofs.v
theories/PropsOctopus.v
theories/AutoModel.v
theories/AutoSpec.v
theories/AutoProofs.v
theories/PropsAutolykos.v
theories/HeavyModel.v
theories/HeavySpec.v
theories/HeavyProofs.v
theories/PropsHeavy.v
theories/VecHeavy.v
theories/EagleTables.v
theories/EagleModel.v
theories/EagleSpec.v
theories/EagleProofs.v
theories/EaglePerm.v
theories/PropsEagle.v
theories/VecEagle.v
theories/EquiModel.v
theories/EquiSpec.v
theories/EquiExpand.v
theories/Levels.v
theories/EquiProofs.v
theories/PropsEqui.v
theories/VecEqui.v
theories/Ordered.v
theories/BeamModel.v
theories/BeamSpec.v
theories/BeamProofs.v
theories/PropsBeam.v
theories/VecBeam.v
theories/ClientModel.v
theories/ClientSpec.v
theories/ClientProofs.v
theories/PropsClients.v
theories/PropsHistory.v
theories/PropsSizes.v
theories/XorModel.v
theories/XorProofs.v
theories/PropsXor.v
theories/GcModel.v
theories/GcProofs.v
theories/PropsGc.v
theories/FileOk.v
theories/PropsDisk.v
theories/WorldModel.v
theories/WorldProofs.v
theories/PropsWorld.v
theories/VecSeeds.v
theories/PowerModel.v
theories/PowerProofs.v
theories/PropsPower.v
theories/DirModel.v
theories/PropsDir.v
theories/RaceSpec.v
theories/RaceModel.v
theories/RaceProofs.v
theories/PropsRace.v
theories/EndianModel.v
theories/PropsEndian.v
theories/MemModel.v
theories/MemSpec.v
theories/MemProofs.v
theories/MemDag.v
theories/MemDagProofs.v
theories/MemProgpow.v
theories/MemProgpowProofs.v
theories/MemCalls.v
theories/MemCallsProofs.v
theories/PropsMem.v
theories/MemAppend.v
theories/MemOctopus.v
theories/MemOctopusProofs.v
theories/MemHeavy.v
theories/MemHeavyProofs.v
theories/MemAuto.v
theories/MemAutoProofs.v
theories/MemEagle.v
theories/MemEagleProofs.v
theories/MemCuckoo.v
theories/MemCuckooProofs.v
theories/MemTree.v
theories/MemTreeProofs.v
theories/MemBeam.v
theories/MemBeamProofs.v
theories/MemEqui.v
theories/MemEquiProofs.v
theories/RecoverModel.v
theories/RecoverProofs.v
theories/RecoverCalls.v
theories/PropsRecover.v
theories/GenModel.v
theories/GenSpec.v
theories/GenProofs.v
theories/PropsGen.v
theories/VecGen.v
theories/VecProgpow.v
theories/VecDag.v
theories/VecAuto.v
theories/VecEthash.v
theories/VecOctopus.v
theories/VecKawpow.v
theories/VecFiropow.v
theories/Work.v
theories/PropsWork.v
theories/PropsWorkHash.v
theories/PropsCommit.v
theories/EquiErrModel.v
theories/EquiErrProofs.v
theories/PropsErr.v
theories/BeamErrModel.v
theories/BeamErrProofs.v
theories/CuckooWalkSpec.v
theories/CuckooWalk.v
theories/PropsWalk.v
