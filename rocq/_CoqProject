-Q theories Verif
theories/Base.v
theories/BaseFacts.v
theories/Schema.v
theories/Value.v
theories/Helpers.v
theories/Size.v
theories/Marshal.v
theories/Unmarshal.v
theories/Equal.v
theories/Clone.v
theories/Pool.v
theories/WireSpec.v
theories/Typing.v
theories/VarintFacts.v
theories/SimFacts.v
theories/OrderFacts.v
theories/MarshalFacts.v
theories/RecordSpec.v
theories/SkipFacts.v
theories/NumFacts.v
theories/HelperFacts.v
theories/PropsHelpers.v
theories/MsgSpec.v
theories/MarshalTop.v
theories/ReorderFacts.v
theories/Ex.v
theories/PropsMarshal.v
theories/ViewFacts.v
theories/TargetFacts.v
theories/UmFacts.v
theories/LoopFacts.v
theories/DecodeSpec.v
theories/DecodeFacts.v
theories/MergeFacts.v
theories/PropsUnmarshal.v
theories/PropsRecords.v
theories/ContentSpec.v
theories/SameFacts.v
theories/RoundTrip.v
theories/RoundTripTop.v
theories/WithinFacts.v
theories/PropsRoundTrip.v
theories/CleanFacts.v
theories/PropsReencode.v
theories/EvolveSpec.v
theories/EvolveFacts.v
theories/EvolveRT.v
theories/PropsEvolve.v
theories/EqualSpec.v
theories/EqualRel.v
theories/EqualFacts.v
theories/EqualSame.v
theories/SizeSame.v
theories/PropsEqual.v
theories/LikeFacts.v
theories/CloneSpec.v
theories/CloneFacts.v
theories/PropsClone.v
theories/PoolSpec.v
theories/RunRel.v
theories/RunFacts.v
theories/PoolFacts.v
theories/PoolRun.v
theories/PoolTotal.v
theories/PropsPool.v
theories/Unsafe.v
theories/UnsafeSpec.v
theories/UnsafeFacts.v
theories/PropsUnsafe.v
theories/Pattern.v
theories/PatternSpec.v
theories/PatternFacts.v
theories/PatternRun.v
theories/PatternComplete.v
theories/PatternTotal.v
theories/PatternValid.v
theories/PropsPattern.v
theories/Generator.v
theories/PropsGen.v
theories/Heap.v
theories/HeapSpec.v
theories/HeapFacts.v
theories/HeapRead.v
theories/PropsHeap.v
theories/HeapDec.v
theories/HeapDecSpec.v
theories/HeapDecFacts.v
theories/PropsHeapDec.v
theories/HeapOwnSpec.v
theories/HeapOwnFacts.v
theories/HeapSim.v
theories/HeapSimEq.v
theories/HeapSimRun.v
theories/HeapReset.v
theories/HeapNil.v
theories/HeapCloneSpec.v
theories/HeapCloneSim.v
theories/HeapCloneTree.v
theories/HeapHist.v
theories/HeapHistFacts.v
theories/EncRel.v
theories/PropsHeapSim.v
theories/PropsHeapHist.v
theories/HeapPar.v
theories/HeapParFacts.v
theories/PropsHeapPar.v
theories/KnownTypes.v
theories/KnownSpec.v
theories/KnownFacts.v
theories/KnownStruct.v
theories/PropsKnown.v
theories/AmplifySpec.v
theories/AmplifyFacts.v
theories/AmplifyBomb.v
theories/PropsAmplify.v
theories/GoSyntax.v
theories/GoSem.v
theories/GenSize.v
theories/GenSizeFacts.v
theories/GoTextSpec.v
theories/GoDescs.v
theories/GoTextSize.v
theories/GoMarshal.v
theories/GenMarshal.v
theories/GenMarshalFacts.v
theories/GoTextMarshal.v
theories/GoTextStrict.v
theories/PropsText.v
theories/PropsPrint.v
theories/GoUnmarshal.v
theories/GenUnmarshal.v
theories/GoTextUnmarshal.v
theories/GoTextUnsafe.v
theories/GenUnmarshalFacts.v
theories/GenUnmarshalRun.v
theories/PropsUnprint.v
theories/GoEqual.v
theories/GenEqual.v
theories/GoTextEqual.v
theories/GenEqualFacts.v
theories/PropsEqPrint.v
theories/GoClone.v
theories/GenClone.v
theories/GoTextClone.v
theories/GenCloneFacts.v
theories/PropsClPrint.v
theories/GoPool.v
theories/GenPool.v
theories/GoTextPool.v
theories/GenPoolFacts.v
theories/PropsPoPrint.v
theories/GoFun.v
theories/HelperCode.v
theories/HelperCodeFacts.v
theories/GoTextHelpers.v
theories/PropsFun.v
theories/GoRpc.v
theories/GenRpc.v
theories/RpcNet.v
theories/RpcFacts.v
theories/GoTextRpc.v
theories/PropsRpc.v
theories/GoTypes.v
theories/GenTypes.v
theories/GenTypesFacts.v
theories/GenTypesMarshal.v
theories/PropsCompile.v
theories/GoTypesUnmarshal.v
theories/GenTypesUnmarshal.v
theories/GenTypesUnPlain.v
theories/GenTypesUnList.v
theories/GenTypesUnMap.v
theories/GenTypesUnBody.v
theories/PropsCompileUnmarshal.v
theories/GoTypesPool.v
theories/PropsCompilePool.v
theories/GoTypesEqual.v
theories/GenTypesEqual.v
theories/PropsCompileEqual.v
theories/GoTypesClone.v
theories/GenTypesClone.v
theories/PropsCompileClone.v
theories/Driver.v
theories/DriverSpec.v
theories/DriverFacts.v
theories/DriverLinks.v
theories/PropsDriver.v
theories/PropsInjective.v
theories/GoTypesRpc.v
theories/PropsCompileRpc.v
