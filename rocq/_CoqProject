-Q theories Verif
theories/Base.v
theories/BaseLemmas.v
theories/FixedPointModel.v
theories/FixedPointSpec.v
theories/FixedPointProofs.v
theories/Props_FixedPoint.v
theories/CommonModel.v
theories/CommonProofs.v
theories/Props_Common.v
theories/PackModel.v
theories/GemmSpec.v
theories/PackProofs.v
theories/PackSpec.v
theories/PackBlock.v
theories/PackSimdModel.v
theories/OutputSimdModel.v
theories/OutputSimdLanes.v
theories/OutputSimdStore.v
theories/OutputSimdBlocks.v
theories/OutputSimdCast.v
theories/OutputSimdSpec.v
theories/OutputSimdStages.v
theories/OutputSimdUnpack.v
theories/PackSimdProofs.v
theories/PackSimdProofs2.v
theories/PackProofs2.v
theories/PackProofs3.v
theories/PackProofs4.v
theories/Props_Pack.v
theories/PackMsaModel.v
theories/PackMsaProofs.v
theories/PackSimdProofs3.v
theories/Props_PackSimd.v
theories/ComputeModel.v
theories/KernelSpec.v
theories/KernelProofs.v
theories/ComputeProofs.v
theories/OutputModel.v
theories/UnpackModel.v
theories/OutputSpec.v
theories/OutputProofs.v
theories/UnpackProofs.v
theories/GemmModel.v
theories/GemmContract.v
theories/GemmProofs.v
theories/GemmProofs2.v
theories/GemmProofs3.v
theories/GemmProofs4.v
theories/GemmProofs5.v
theories/OutputProofs2.v
theories/GemmExample.v
theories/GemmRefuted.v
theories/Props_Gemm.v
theories/UnpackSpec.v
theories/OutputSimdProps.v
theories/OutputSimdExample.v
theories/Props_OutputSimd.v
theories/AccuracySpec.v
theories/ExpReal.v
theories/ExpAccuracy.v
theories/AccuracyProps.v
theories/Props_Accuracy.v
theories/Props_Output.v
theories/PoolModel.v
theories/PoolSpec.v
theories/PoolProofs.v
theories/PoolProofs2.v
theories/PoolProofs3.v
theories/PoolProofs4.v
theories/PoolProofs5.v
theories/Props_Pool.v
theories/AllocatorModel.v
theories/AllocatorSpec.v
theories/AllocatorProofs.v
theories/Props_Allocator.v
theories/FixedPointProofs2.v
theories/FixedPointProofs3.v
theories/FixedPointProofs4.v
theories/FixedPointProofs5.v
theories/Props_Transcendental.v
theories/EightBitModel.v
theories/EightBitSpec.v
theories/EightBitProofs.v
theories/EightBitProofs2.v
theories/EightBitProofs3.v
theories/EightBitProofs4.v
theories/Props_EightBit.v
theories/MetaModel.v
theories/MetaSpec.v
theories/MetaProofs.v
theories/MetaProofs2.v
theories/MetaProofs3.v
theories/MetaProofs4.v
theories/MetaProofs5.v
theories/MetaProofs6.v
theories/MetaRefuted.v
theories/MetaExample.v
theories/Props_Meta.v
theories/FloatSpec.v
theories/FloatProofs.v
theories/FloatProofs2.v
theories/FloatProofs3.v
theories/QuantModel.v
theories/QuantSpec.v
theories/QuantProofs.v
theories/QuantProofs2.v
theories/QuantProofs3.v
theories/QuantProofs4.v
theories/QuantProofs5.v
theories/QuantProofs6.v
theories/QuantProofs7.v
theories/QuantRefuted.v
theories/QuantExample.v
theories/Props_Quant.v
theories/ProfileTreeModel.v
theories/ProfileTreeSpec.v
theories/ProfileTreeProofs.v
theories/ProfilerModel.v
theories/ProfilerSpec.v
theories/ProfilerProofs.v
theories/ProfilerProofs2.v
theories/ProfilerProofs3.v
theories/ProfilerProofs4.v
theories/ProfilerScopes.v
theories/ProfilerRefuted.v
theories/Props_Profiler.v
theories/SimdModel.v
theories/SimdSpec.v
theories/SimdProofs.v
theories/SimdProofs2.v
theories/SimdProofs3.v
theories/SimdProofs4.v
theories/SimdFull.v
theories/SimdModel2.v
theories/SimdProofs5.v
theories/SimdSpec2.v
theories/SimdProofs6.v
theories/SimdFull2.v
theories/Props_Simd2.v
theories/Props_Simd.v
theories/X86Kernels.v
theories/X86Model.v
theories/X86Proofs.v
theories/X86Loop.v
theories/X86Blocks.v
theories/X86Contract.v
theories/X86Example.v
theories/X86Refuted.v
theories/Props_Kernels.v
theories/ArmModel.v
theories/ArmKernels.v
theories/ArmProofs.v
theories/ArmLoop.v
theories/Arm64Blocks.v
theories/Arm64Dot.v
theories/ArmInt8.v
theories/Arm64Int8.v
theories/Arm32Blocks.v
theories/Arm32Int8.v
theories/Arm32Bits12.v
theories/ArmContract.v
theories/ArmInt8Inputs.v
theories/ArmExample.v
theories/MsaModel.v
theories/MsaKernels.v
theories/MsaProofs.v
theories/MsaBlocks.v
theories/MsaInt8.v
theories/MsaContract.v
theories/MsaExample.v
theories/Props_Msa.v
theories/Bits12Contract.v
theories/Props_Neon.v
theories/SelectModel.v
theories/SelectContract.v
theories/SelectProofs.v
theories/Props_Select.v
theories/Int8InputsExample.v
theories/Props_Int8Inputs.v
theories/TransformModel.v
theories/TransformKernels.v
theories/TransformBlocks.v
theories/TransformSpec.v
theories/TransformProofs.v
theories/TransformProofs2.v
theories/Props_Transform.v
theories/TransformKernels32.v
theories/TransformBlocks32.v
theories/TransformProofs32.v
theories/Props_Transform32.v
theories/BlockIntModel.v
theories/BlockIntProofs.v
theories/BlockIntRefuted.v
theories/Props_BlockInt.v
theories/BufferProofs.v
theories/Props_Buffers.v
