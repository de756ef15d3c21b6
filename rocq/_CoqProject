-Q theories Verif
theories/Lib/Arr.v
theories/Lib/CInt.v
theories/Lib/CMon.v
theories/Lib/Wire.v
theories/Lib/Gate.v
theories/Spec/Bits.v
theories/Spec/Ring.v
theories/Spec/Sampling.v
theories/Spec/Saber.v
theories/Spec/M4Spec.v
theories/Spec/Keccak.v
theories/Spec/Noise.v
theories/Spec/Count.v
theories/Spec/Bytes.v
theories/Spec/Drbg.v
theories/Spec/Sha2.v
theories/Spec/Aes.v
theories/Spec/Sym.v
theories/Spec/Kat.v
theories/Model/Params.v
theories/Model/Pack.v
theories/Model/Verify.v
theories/Model/Cbd.v
theories/Model/PolyMul.v
theories/Model/Poly.v
theories/Model/Indcpa.v
theories/Model/Kem.v
theories/Model/Fips202.v
theories/Model/Api.v
theories/Model/Rng.v
theories/Model/Sha2.v
theories/Model/Aes.v
theories/Model/Driver.v
theories/Proof/PackP.v
theories/Proof/PackThm.v
theories/Proof/Conv.v
theories/Proof/KaraP.v
theories/Proof/ToomP.v
theories/Model/M0.v
theories/Model/M4.v
theories/Model/Arm.v
theories/Model/ArmCode.v
theories/Model/ArmTrace.v
theories/Model/M4Mul.v
theories/Proof/CbdP.v
theories/Proof/VerifyP.v
theories/Proof/PolyP.v
theories/Proof/IndcpaP.v
theories/Proof/KemP.v
theories/Proof/CtP.v
theories/Proof/KeccakP.v
theories/Proof/SpongeP.v
theories/Proof/SpongeCt.v
theories/Proof/NoiseP.v
theories/Proof/KemThm.v
theories/Proof/KeccakF.v
theories/Proof/Fast.v
theories/Proof/KemEx.v
theories/Proof/HashThm.v
theories/Proof/MulThm.v
theories/Proof/Dist.v
theories/Proof/SampleThm.v
theories/Proof/BytesP.v
theories/Proof/RngP.v
theories/Proof/RngThm.v
theories/Proof/RngEx.v
theories/Proof/Sha2P.v
theories/Proof/Sha2Thm.v
theories/Proof/Sha2Ct.v
theories/Proof/Sha2Const.v
theories/Proof/GateP.v
theories/Proof/AesGate.v
theories/Proof/AesWord.v
theories/Proof/AesKey.v
theories/Proof/AesBlock.v
theories/Proof/AesP.v
theories/Proof/AesCt.v
theories/Proof/AesThm.v
theories/Proof/AesF.v
theories/Proof/KatThm.v
theories/Proof/KatF.v
theories/Proof/SymP.v
theories/Proof/M0P.v
theories/Proof/M0KaraP.v
theories/Proof/M0MulP.v
theories/Proof/M4PackP.v
theories/Proof/M4P.v
theories/Proof/M4Thm.v
theories/Proof/ArmSym.v
theories/Proof/ArmSymP.v
theories/Proof/ArmKaraP.v
theories/Proof/ArmToomP.v
theories/Proof/M4MulP.v
theories/Proof/ArmStrdP.v
theories/Proof/StrdP.v
theories/Spec/AvxSpec.v
theories/Model/Vec.v
theories/Model/AvxCode.v
theories/Model/AvxMul.v
theories/Model/AvxKem.v
theories/Proof/AvxSym.v
theories/Proof/AvxTab.v
theories/Proof/AvxMulP.v
theories/Proof/AvxConvP.v
theories/Proof/AvxIntP.v
theories/Proof/AvxThm.v
theories/Proof/AvxKemP.v
theories/Proof/AvxIndP.v
theories/Proof/AvxKemThm.v
theories/Spec/AesCtr.v
theories/Model/AesNi.v
theories/Proof/AesNiP.v
theories/Proof/AesNiThm.v
theories/Proof/AesNiKem.v
theories/Spec/CtSpec.v
theories/Proof/AvxCt.v
theories/Proof/AesNiCt.v
theories/Proof/AvxCtThm.v
theories/Props/AvxCt.v
theories/Proof/ArmTrP.v
theories/Proof/ArmTrThm.v
theories/Proof/M4Ct.v
theories/Proof/M4CtThm.v
theories/Props/M4Ct.v
theories/Props/ArmTr.v
theories/Proof/X4Ct.v
theories/Proof/X4CtThm.v
theories/Props/X4Ct.v
theories/Model/X4Rng.v
theories/Spec/X4RngSpec.v
theories/Proof/X4RngThm.v
theories/Props/X4Rng.v
theories/Spec/Shake256.v
theories/Model/Fips202x4.v
theories/Proof/Keccak4P.v
theories/Proof/Sponge4P.v
theories/Proof/X4Ub.v
theories/Spec/X4Spec.v
theories/Spec/M0Spec.v
theories/Spec/M0DecSpec.v
theories/Model/X4Pack.v
theories/Model/X4Kem.v
theories/Model/M0Kem.v
theories/Model/M0Dec.v
theories/Proof/X4PackP.v
theories/Proof/X4GenP.v
theories/Proof/X4IndP.v
theories/Proof/X4KemThm.v
theories/Proof/M0GenP.v
theories/Proof/M0KemP.v
theories/Proof/M0KemThm.v
theories/Proof/M0ApiP.v
theories/Proof/M0PrngP.v
theories/Proof/M0Ex.v
theories/Proof/M0DecP.v
theories/Proof/M0DecThm.v
theories/Proof/M0DecEx.v
theories/Props/Avx.v
theories/Props/AvxAes.v
theories/Props/X4.v
theories/Props/X4Kem.v
theories/Props/M0.v
theories/Props/M0Mul.v
theories/Props/M4.v
theories/Props/Packing.v
theories/Props/Kem.v
theories/Props/Hash.v
theories/Props/Arith.v
theories/Props/Sampling.v
theories/Props/Verify.v
theories/Props/Rng.v
theories/Props/Sha2.v
theories/Props/Aes.v
theories/Props/Kat.v
theories/Props/M0Kem.v
theories/Props/M0Dec.v
theories/Kat/FireSaber.v
theories/Kat/FireSaber90s.v
theories/Kat/LightSaber.v
theories/Kat/LightSaber90s.v
theories/Kat/Saber.v
theories/Kat/Saber90s.v
theories/Kat/uFireSaber.v
theories/Kat/uFireSaber90s.v
theories/Kat/uLightSaber.v
theories/Kat/uLightSaber90s.v
theories/Kat/uSaber.v
theories/Kat/uSaber90s.v
