-Q theories Verif
theories/CSem.v
theories/ModelArith.v
theories/ModelKeccak.v
theories/ModelIndcpa.v
theories/ModelKem.v
theories/ModelAvx2.v
theories/ModelX86.v
theories/ModelX86Asm.v
theories/ModelX86Poly.v
theories/ModelX86Keccak.v
theories/ModelX86Indcpa.v
theories/ModelX86Kem.v
theories/Spec202.v
theories/Spec203.v
theories/SpecLink.v
theories/SpecHistory.v
theories/SpecMem.v
theories/SpecApi.v
theories/SpecNoise.v
theories/SpecMachine.v
theories/SpecX86.v
theories/SpecX86Frame.v
theories/SpecX86Build.v
theories/CSemFacts.v
theories/ProofScalar.v
theories/ProofBits.v
theories/ProofChunk.v
theories/ProofPack.v
theories/ProofCbd.v
theories/ProofRej.v
theories/ProofSum.v
theories/ProofNttSpec.v
theories/ProofRing.v
theories/ProofNtt.v
theories/ProofMul.v
theories/ProofKeccakF.v
theories/ProofSponge.v
theories/ProofHash.v
theories/ProofHistory.v
theories/ProofX86Keccak.v
theories/ProofX86Hash.v
theories/ProofX86Noise.v
theories/ProofX86Matrix.v
theories/ProofX86Pke.v
theories/ProofX86Kem.v
theories/ProofMatrix.v
theories/ProofAvx2.v
theories/ProofAvx2Matrix.v
theories/ProofX86.v
theories/ProofX86Ntt.v
theories/ProofX86Sym.v
theories/ProofX86Word.v
theories/ProofX86Poly.v
theories/ProofX86Frame.v
theories/ProofNoise.v
theories/ProofPke.v
theories/ProofMem.v
theories/ProofKem.v
theories/ProofKeys.v
theories/ProofApi.v
theories/ProofReturn.v
theories/ProofCorrect.v
theories/ProofMachine.v
theories/ProofLeak.v
theories/ProofLeakHash.v
theories/ProofLeakKem.v
theories/ProofX86Leak.v
theories/ProofX86LeakKem.v
theories/PropScalar.v
theories/Samples.v
theories/SamplesKem.v
theories/SamplesX86.v
theories/SamplesNoise.v
theories/PropPoly.v
theories/PropSample.v
theories/PropNtt.v
theories/PropKeccak.v
theories/PropMatrix.v
theories/PropNoise.v
theories/PropKem.v
theories/PropCorrect.v
theories/PropMachine.v
theories/PropLeak.v
theories/PropAvx2.v
theories/PropX86.v
theories/PropX86Keccak.v
theories/PropX86Kem.v
theories/PropX86Leak.v
theories/ModelA64.v
theories/ModelA64Asm.v
theories/ModelA64Poly.v
theories/SpecA64Frame.v
theories/ProofA64.v
theories/ProofA64Ntt.v
theories/ProofA64Sym.v
theories/ProofA64Word.v
theories/ProofA64Poly.v
theories/ProofA64Frame.v
theories/SamplesA64.v
theories/PropA64.v
theories/ModelA64Rej.v
theories/ProofA64Rej.v
theories/PropA64Rej.v
theories/ModelA64Keccak.v
theories/ModelA64KeccakAsm.v
theories/ModelA64Fips202.v
theories/SpecA64Keccak.v
theories/ProofA64KeccakSym.v
theories/ProofA64KeccakCheck.v
theories/ProofA64Keccak.v
theories/ProofA64Permute.v
theories/PropA64Keccak.v
theories/ModelA64Sponge.v
theories/ModelA64Indcpa.v
theories/ModelA64Kem.v
theories/SpecA64Build.v
theories/ProofA64Hash.v
theories/ProofA64Matrix.v
theories/ProofA64Noise.v
theories/ProofA64Pke.v
theories/ProofA64Kem.v
theories/PropA64Hash.v
theories/PropA64Kem.v
theories/ProofA64LeakAsm.v
theories/ProofA64Leak.v
theories/ProofA64LeakKem.v
theories/PropA64Leak.v
theories/SpecContract.v
theories/ModelRelease.v
theories/ProofContract.v
theories/ProofContract2.v
theories/ProofContractCase.v
theories/PropContract.v
theories/SpecBuilds.v
theories/ProofBuilds.v
theories/PropBuilds.v
theories/SpecNative.v
theories/ProofNative.v
theories/PropNative.v
theories/ModelX86Abi.v
theories/SpecX86Abi.v
theories/ProofX86Abi.v
theories/ProofX86Abi2.v
theories/ProofX86Abi3.v
theories/ProofX86Abi4.v
theories/SamplesX86Abi.v
theories/PropX86Abi.v
theories/ModelTests.v
theories/SpecTests.v
theories/ProofTests.v
theories/SamplesTests.v
theories/PropTests.v
theories/SpecCount.v
theories/ProofCount.v
theories/PropCount.v
theories/ModelSurf.v
theories/SpecSurf.v
theories/ProofSurf.v
theories/PropSurf.v
theories/ModelAes.v
theories/SpecAes.v
theories/ProofAesBits.v
theories/ProofAesRound.v
theories/ProofAesKey.v
theories/ProofAes.v
theories/PropAes.v
theories/ModelDrbg.v
theories/SpecDrbg.v
theories/ProofDrbg.v
theories/PropDrbg.v
theories/ModelKat.v
theories/SpecKat.v
theories/ProofKat.v
theories/ProofNistKat.v
theories/SamplesKat.v
theories/PropKat.v
theories/ModelAcvp.v
theories/SpecAcvp.v
theories/ProofAcvp.v
theories/PropAcvp.v
theories/ModelAlias.v
theories/SpecAlias.v
theories/ProofAlias.v
theories/SamplesAlias.v
theories/PropAlias.v
theories/ModelBench.v
theories/SpecBench.v
theories/ProofBench.v
theories/SamplesBench.v
theories/PropBench.v
theories/ModelPython.v
theories/ModelGen.v
theories/ModelBounds.v
theories/SpecPython.v
theories/ProofGen.v
theories/ProofBounds.v
theories/SamplesPython.v
theories/PropGen.v
theories/PropBounds.v
theories/ModelDebug.v
theories/SpecDebug.v
theories/ProofDebug.v
theories/PropDebug.v
theories/ModelCppNames.v
theories/ModelCpp.v
theories/ModelSources.v
theories/ModelConfig.v
theories/SpecConfig.v
theories/SamplesConfig.v
theories/ProofConfig.v
theories/PropConfig.v
theories/ModelInPlace.v
theories/ProofInPlace.v
theories/PropInPlace.v
theories/ModelOverlap.v
theories/ProofOverlap.v
theories/PropOverlap.v
