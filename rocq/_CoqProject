-Q theories Verif
theories/Base/CWord.v
theories/Base/Double.v
theories/Base/Leak.v
theories/Base/Res.v
theories/Model/Api.v
theories/Model/Blake1.v
theories/Model/Blake2.v
theories/Model/BlakeMix.v
theories/Model/Buffer.v
theories/Model/CShake.v
theories/Model/Call.v
theories/Model/Chaining.v
theories/Model/Cli.v
theories/Model/Counted.v
theories/Model/Counter.v
theories/Model/Crc32.v
theories/Model/Extension.v
theories/Model/Fnv.v
theories/Model/Gen/Blake1Tables.v
theories/Model/Gen/Blake1_224Calls.v
theories/Model/Gen/Blake1_256Calls.v
theories/Model/Gen/Blake1_384Calls.v
theories/Model/Gen/Blake1_512Calls.v
theories/Model/Gen/Blake2Calls.v
theories/Model/Gen/Blake2sCalls.v
theories/Model/Gen/Crc32Table.v
theories/Model/Gen/Has160Calls.v
theories/Model/Gen/Has160Tables.v
theories/Model/Gen/HasVCalls.v
theories/Model/Gen/HasVTables.v
theories/Model/Gen/KeccakTables.v
theories/Model/Gen/Md2Tables.v
theories/Model/Gen/Md4Calls.v
theories/Model/Gen/Md5Calls.v
theories/Model/Gen/Ripemd128Calls.v
theories/Model/Gen/Ripemd160Calls.v
theories/Model/Gen/Ripemd256Calls.v
theories/Model/Gen/Ripemd320Calls.v
theories/Model/Gen/Sha1Calls.v
theories/Model/Gen/Sha2Tables.v
theories/Model/Gen/Sm3Calls.v
theories/Model/Gen/TigerTables.v
theories/Model/Gen/WhirlpoolTables.v
theories/Model/Has160.v
theories/Model/HasV.v
theories/Model/Helpers.v
theories/Model/Keccak.v
theories/Model/KeccakObj.v
theories/Model/Leak/LkBlake1.v
theories/Model/Leak/LkBlake2.v
theories/Model/Leak/LkBlakeMix.v
theories/Model/Leak/LkBuffer.v
theories/Model/Leak/LkCShake.v
theories/Model/Leak/LkCall.v
theories/Model/Leak/LkCrc32.v
theories/Model/Leak/LkFnv.v
theories/Model/Leak/LkHas160.v
theories/Model/Leak/LkHasV.v
theories/Model/Leak/LkKeccak.v
theories/Model/Leak/LkMd2.v
theories/Model/Leak/LkMd4.v
theories/Model/Leak/LkMd5.v
theories/Model/Leak/LkRipemd.v
theories/Model/Leak/LkSha1.v
theories/Model/Leak/LkSha2.v
theories/Model/Leak/LkSipHash.v
theories/Model/Leak/LkSm3.v
theories/Model/Leak/LkStream.v
theories/Model/Leak/LkTiger.v
theories/Model/Leak/LkTupleHash.v
theories/Model/Leak/LkWhirlpool.v
theories/Model/LeakHasV.v
theories/Model/LeakLibrary.v
theories/Model/LeakObjects.v
theories/Model/Library.v
theories/Model/Md2.v
theories/Model/Md4.v
theories/Model/Md5.v
theories/Model/ObjApi.v
theories/Model/ObjEquality.v
theories/Model/Overloads.v
theories/Model/Residue.v
theories/Model/Ripemd.v
theories/Model/Sha1.v
theories/Model/Sha2.v
theories/Model/SipHash.v
theories/Model/Sm3.v
theories/Model/Span.v
theories/Model/Stream.v
theories/Model/Tiger.v
theories/Model/ToBool.v
theories/Model/Traced.v
theories/Model/TupleHash.v
theories/Model/Whirlpool.v
theories/Proof/AnyOrder.v
theories/Proof/AnyOrderBlake.v
theories/Proof/AnyOrderLibrary.v
theories/Proof/Api.v
theories/Proof/Blake1.v
theories/Proof/Blake1Tail.v
theories/Proof/Blake2.v
theories/Proof/BlakeMix.v
theories/Proof/Blocks.v
theories/Proof/Builds.v
theories/Proof/CShake.v
theories/Proof/CShakeReset.v
theories/Proof/CShakeSafe.v
theories/Proof/Class.v
theories/Proof/Cli.v
theories/Proof/Collide.v
theories/Proof/Count.v
theories/Proof/Crc32.v
theories/Proof/Crc32Algebra.v
theories/Proof/Delayed.v
theories/Proof/Domain.v
theories/Proof/Double.v
theories/Proof/Encode.v
theories/Proof/Equality.v
theories/Proof/Extension.v
theories/Proof/Fnv.v
theories/Proof/FnvAlgebra.v
theories/Proof/Frozen.v
theories/Proof/Has160.v
theories/Proof/HasV.v
theories/Proof/HasVVectors.v
theories/Proof/Helpers.v
theories/Proof/Inner.v
theories/Proof/Keccak.v
theories/Proof/KeccakF.v
theories/Proof/KeccakObj.v
theories/Proof/KeccakOut.v
theories/Proof/KeccakPerm.v
theories/Proof/LeakEqual.v
theories/Proof/LeakErase.v
theories/Proof/LeakHasV.v
theories/Proof/LeakLinear.v
theories/Proof/LeakObjEqual.v
theories/Proof/LeakObjErase.v
theories/Proof/LeakObjWork.v
theories/Proof/LeakPrograms.v
theories/Proof/LeakTables.v
theories/Proof/LeakWork.v
theories/Proof/Ledger.v
theories/Proof/LedgerLaws.v
theories/Proof/LedgerLib.v
theories/Proof/Legal.v
theories/Proof/Library.v
theories/Proof/LibraryLaws.v
theories/Proof/Literal.v
theories/Proof/Lockstep.v
theories/Proof/Log2Witness.v
theories/Proof/MD.v
theories/Proof/MD128.v
theories/Proof/Md2.v
theories/Proof/Md2Neq.v
theories/Proof/Md4.v
theories/Proof/Md5.v
theories/Proof/NeverWrong.v
theories/Proof/ObjApi.v
theories/Proof/ObjEq.v
theories/Proof/ObjLegal.v
theories/Proof/ObjResidue.v
theories/Proof/Overloads.v
theories/Proof/Ownership.v
theories/Proof/Padding.v
theories/Proof/Pigeonhole.v
theories/Proof/Post.v
theories/Proof/Registers.v
theories/Proof/RegistersLib.v
theories/Proof/Regs.v
theories/Proof/Residue.v
theories/Proof/Ripemd.v
theories/Proof/Rounds.v
theories/Proof/Sha1.v
theories/Proof/Sha2.v
theories/Proof/Shake.v
theories/Proof/Shape.v
theories/Proof/SipHash.v
theories/Proof/Sm3.v
theories/Proof/Span.v
theories/Proof/SpanRun.v
theories/Proof/SpongeEq.v
theories/Proof/SpongeNeq.v
theories/Proof/StreamClass.v
theories/Proof/Streaming.v
theories/Proof/Swap.v
theories/Proof/Tape.v
theories/Proof/TapeLaws.v
theories/Proof/TapeObj.v
theories/Proof/Tiger.v
theories/Proof/ToBool.v
theories/Proof/Traced.v
theories/Proof/TupleHash.v
theories/Proof/Whirlpool.v
theories/Proof/Words.v
theories/Props/C01_Sha1.v
theories/Props/C02_Sha256.v
theories/Props/C03_Sha512.v
theories/Props/C04_Md2.v
theories/Props/C05_Md4.v
theories/Props/C06_Md5.v
theories/Props/C07_Ripemd.v
theories/Props/C08_Has160.v
theories/Props/C09_Sm3.v
theories/Props/C10_Tiger.v
theories/Props/C11_Tiger.v
theories/Props/C12_Whirlpool.v
theories/Props/C13_Blake.v
theories/Props/C14_Blake2.v
theories/Props/C15_Sha3.v
theories/Props/C16_Shake.v
theories/Props/C17_CShake.v
theories/Props/C17_NeverWrong.v
theories/Props/C18_TupleHash.v
theories/Props/C19_SipHash.v
theories/Props/C20_Crc32.v
theories/Props/C21_Fnv.v
theories/Props/C22_Chunks.v
theories/Props/C23_CShakeReset.v
theories/Props/C23_Fnv.v
theories/Props/C23_Library.v
theories/Props/C24_Safety.v
theories/Props/C26_Readouts.v
theories/Props/C27_Equality.v
theories/Props/C28_StdHash.v
theories/Props/C29_Length.v
theories/Props/C30_Encodings.v
theories/Props/C31_TupleStream.v
theories/Props/C33_CShakeObjects.v
theories/Props/C34_Copies.v
theories/Props/C35_Padding.v
theories/Props/C36_Burst.v
theories/Props/C37_Cli.v
theories/Props/C38_Domains.v
theories/Props/C39_Overloads.v
theories/Props/C40_AnyOrder.v
theories/Props/C41_Frozen.v
theories/Props/C42_Literal.v
theories/Props/C43_HasV.v
theories/Props/C44_Extension.v
theories/Props/C45_CrcAlgebra.v
theories/Props/C46_FnvAlgebra.v
theories/Props/C47_Once.v
theories/Props/C48_Bool.v
theories/Props/C49_Lengths.v
theories/Props/C50_Ownership.v
theories/Props/C51_Span.v
theories/Props/C52_Helpers.v
theories/Props/C53_Exact.v
theories/Props/C54_Programs.v
theories/Props/C55_Registers.v
theories/Props/C56_Swap.v
theories/Props/C57_Inner.v
theories/Props/C58_Residue.v
theories/Props/C59_Leakage.v
theories/Props/C60_Work.v
theories/Props/C61_ObjectTraces.v
theories/Props/C62_ObjectWork.v
theories/Props/C63_HasVTraces.v
theories/Props/C64_ObjectMemory.v
theories/Spec/AnyOrder.v
theories/Spec/AnyString.v
theories/Spec/Blake.v
theories/Spec/Blake2.v
theories/Spec/BlakeCore.v
theories/Spec/CShakeArgs.v
theories/Spec/Chaining.v
theories/Spec/Cli.v
theories/Spec/Client.v
theories/Spec/Crc32.v
theories/Spec/Domain.v
theories/Spec/Extension.v
theories/Spec/Fnv.v
theories/Spec/Has160.v
theories/Spec/HasV.v
theories/Spec/Helpers.v
theories/Spec/Inner.v
theories/Spec/Keccak.v
theories/Spec/KeccakTypes.v
theories/Spec/Ledger.v
theories/Spec/Legal.v
theories/Spec/Log2.v
theories/Spec/Md2.v
theories/Spec/Md4.v
theories/Spec/Md5.v
theories/Spec/Memory.v
theories/Spec/Merkle.v
theories/Spec/ObjClient.v
theories/Spec/ObjLegal.v
theories/Spec/ObjMemory.v
theories/Spec/ObjShape.v
theories/Spec/Ownership.v
theories/Spec/Registers.v
theories/Spec/Residue.v
theories/Spec/Ripemd.v
theories/Spec/Sha1.v
theories/Spec/Sha2.v
theories/Spec/Shape.v
theories/Spec/SipHash.v
theories/Spec/Sm3.v
theories/Spec/Sp800185.v
theories/Spec/Swap.v
theories/Spec/Tape.v
theories/Spec/Tiger.v
theories/Spec/TigerSbox.v
theories/Spec/View.v
theories/Spec/Whirlpool.v
theories/Spec/Words.v
theories/Spec/Work.v
theories/Tests/Kit.v
theories/Tests/KitLegal.v
theories/Tests/KitObj.v
theories/Tests/KitValue.v
