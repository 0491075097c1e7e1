-Q theories Verif
theories/Word.v
theories/WordLemmas.v
theories/Res.v
theories/Hex.v
theories/SpecChaCha.v
theories/ChaChaCore.v
theories/ChaChaBackend.v
theories/ChaChaSoft.v
theories/ChaChaProofs.v
theories/Simd.v
theories/ChaChaSse2.v
theories/ChaChaAvx2.v
theories/ChaChaAvx512.v
theories/ChaChaNeon.v
theories/SimdProofs.v
theories/ChaChaSse2Proofs.v
theories/ChaChaAvx2Proofs.v
theories/ChaChaAvx512Proofs.v
theories/ChaChaNeonProofs.v
theories/ChaChaDispatch.v
theories/XChaCha.v
theories/ChaChaDispatchProofs.v
theories/SpecStream.v
theories/CipherWrapper.v
theories/WrapperProofs.v
theories/SpecSalsa.v
theories/Salsa.v
theories/SalsaProofs.v
theories/PropCommon.v
theories/PropertiesChaCha.v
theories/SpecRabbit.v
theories/Rabbit.v
theories/RabbitProofs.v
theories/SpecRC4.v
theories/Rc4.v
theories/Rc4Proofs.v
theories/SpecHC256.v
theories/Hc256.v
theories/Hc256Proofs.v
theories/Hc256Seq.v
theories/Hc256Fast.v
theories/Ciphers.v
theories/CiphersProofs.v
theories/StreamLemmas.v
theories/Memory.v
theories/MemoryProofs.v
theories/PropertiesMemory.v
theories/NeonEndian.v
theories/PropertiesEndian.v
theories/PropertiesInterop.v
theories/PropertiesPeriod.v
theories/Sizes.v
theories/PropertiesSizes.v
theories/PropertiesSimd.v
theories/Isa.v
theories/PropertiesIsa.v
theories/Cfg.v
theories/CfgProofs.v
theories/PropertiesCfg.v
theories/PropertiesSalsa.v
theories/PropertiesRabbit.v
theories/PropertiesRc4.v
theories/PropertiesHc256.v
theories/PropertiesPermutation.v
theories/PropertiesHc256Inj.v
theories/PropertiesSalsaSym.v
theories/PropertiesRc4Bias.v
theories/PropertiesRabbitIv.v
theories/PropertiesStream.v
theories/SeekNum.v
theories/PropertiesSeekNum.v
theories/BlockRng.v
theories/SpecRng.v
theories/ChaChaRng.v
theories/RngProofs.v
theories/PropertiesRng.v
theories/Lifecycle.v
theories/LifecycleProofs.v
theories/PropertiesSecrecy.v
theories/Leakage.v
theories/LeakageProofs.v
theories/PropertiesLeakage.v
theories/LeakageRes.v
theories/LeakageSimd.v
theories/LeakageResProofs.v
theories/LeakageSimdProofs.v
theories/LeakageSim.v
theories/LeakageLeaks.v
theories/PropertiesTiming.v
theories/Kats.v
theories/PropertiesSymmetry.v
theories/PropertiesRngExact.v
theories/Fast.v
theories/RepoVectors.v
theories/PropertiesRepoTests.v
theories/BlockApi.v
theories/PropertiesBlockApi.v
theories/Repaired.v
theories/PropertiesRepaired.v
theories/PropertiesMerge.v
theories/LeakageRng.v
theories/PropertiesRngTiming.v
theories/PropertiesCross.v
theories/PropertiesRc4Keys.v
theories/LeakageStream.v
theories/PropertiesStreamTiming.v
theories/PropertiesHc256Recover.v
theories/PropertiesRc4Fms.v
theories/RngFamily.v
theories/PropertiesRngFamily.v
theories/PropertiesAead.v
theories/Panics.v
theories/PropertiesPanics.v
theories/Locals.v
theories/PropertiesLocals.v
theories/PropertiesOneTimePad.v
theories/SpecScrypt.v
theories/PropertiesScrypt.v
theories/Packed.v
theories/PropertiesPacked.v
theories/Unwind.v
theories/InOut.v
theories/Detect.v
theories/PropertiesUnwind.v
theories/PropertiesInOut.v
theories/PropertiesDetect.v
theories/CfgOthers.v
theories/Ci.v
theories/PropertiesCi.v
theories/Work.v
theories/PropertiesWork.v
theories/PropertiesDocs.v
theories/PropertiesProtocols.v
theories/RustSyntax.v
theories/RustSem.v
theories/RustText.v
theories/RustPrograms.v
theories/RustLemmas.v
theories/RustChaCha.v
theories/RustChaCha2.v
theories/RustSalsa.v
theories/RustRabbit.v
theories/PropertiesSource.v
theories/RustMeth.v
theories/RustRc4.v
theories/RustRc4b.v
theories/RustRc4c.v
theories/RustHc256.v
theories/RustHc256b.v
theories/RustHc256c.v
theories/RustHc256d.v
theories/RustHc256e.v
theories/PropertiesSource2.v
theories/RustRngText.v
theories/RustRng.v
theories/RustRng2.v
theories/RustRng3.v
theories/RustRng4.v
theories/PropertiesSource3.v
theories/RustRng5.v
theories/PropertiesSource4.v
