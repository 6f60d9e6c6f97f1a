# Design of the gemmlowp model

The model is in `rocq/theories`, written for Coq 8.16.1. `properties.jsonl` states the properties, `MANIFEST.json` maps each to its theorems, `seeded/LOG.jsonl` records the tests of the theorems against wrong programs.

## How the files are organised

| kind of file | contents |
|---|---|
| `*Model.v`, `*Kernels.v` | definitions modelling the C++ code, each citing file and lines |
| `*Spec.v`, `*Contract.v` | the vocabulary of the properties, independent of the code's helpers |
| `*Proofs*.v`, `*Loop.v`, `*Blocks.v` | lemmas |
| `*Example.v`, `*Refuted.v` | concrete instances and counterexamples |
| `Props_*.v` | the property theorems, each closed by `exact`, followed by `Print Assumptions` and an `Example` |

A theorem named `…_refuted` shows that a plausible reading of the property is false of the code. A theorem named `…_partial` proves less than the property says.

## Trusted base

1. Coq's kernel (the proofs do not use `native_compute`; `vm_compute` is used in examples and in finite case checks, so the virtual machine is trusted too).
2. Axioms: `Print Assumptions` reports "Closed under the global context" for every theorem in the `Props_*.v` files except those of `Props_Accuracy.v` (C62, C63). These are about real numbers and depend on axioms of the standard library: `ClassicalDedekindReals.sig_not_dec`, `ClassicalDedekindReals.sig_forall_dec`, `FunctionalExtensionality.functional_extensionality_dep` and `Classical_Prop.classic`. The only other axioms present in loaded libraries are the seven parameters of the module type in `Coq.ssr.ssrunder` of the standard library, which come in through the standard library's tactics; no theorem depends on them.
3. That the definitions say what the C++ code does, with the simplifications listed below.
4. That the specifications (`GemmSpec.v`, `GemmContract.v`, `KernelSpec.v`, `OutputSpec.v`, `FixedPointSpec.v`, `FloatSpec.v`, `AllocatorSpec.v`, `PoolSpec.v`, `EightBitSpec.v`, `MetaSpec.v`, `QuantSpec.v`, `ProfilerSpec.v`, `ProfileTreeSpec.v`, `SimdSpec.v`, `OutputSimdSpec.v`, `UnpackSpec.v`, `SelectContract.v`, `AccuracySpec.v`) say what the properties mean.
5. For the assembly and intrinsics: that the processors behave as Intel's, Arm's, MIPS's and the WebAssembly documentation of these instructions says, as transcribed in `SimdModel.v`, `SimdModel2.v`, `X86Model.v`, `ArmModel.v`, `MsaModel.v` and `PackMsaModel.v`, and that the generators in `tools/` transcribe the assembly faithfully.

## General modelling choices

* Machine integers are `Z` with explicit ranges. 32-bit arithmetic that could overflow goes through an overflow mode: `Wrap` (two's complement) or `Trap` (overflow is undefined, the run fails). Sizes and addresses are unbounded where the file header says so.
* Undefined behaviour, failed assertions and out-of-bounds accesses are the outcome `None` of the option monad. Theorems conclude that the run returns `Some`.
* Memory is a partial function from addresses to values. Allocated but uninitialised cells hold arbitrary values, so theorems quantify over stale contents.
* Loops are structural or fuelled; the fuel is computed from the bounds and proved sufficient.
* Template parameters (kernel format, register size, tile sizes) are ordinary arguments, so theorems hold for all formats and not only for the instantiated ones.
* Threads are interleavings of shared-memory operations under sequential consistency. For the worker pool this is justified because `task_` is accessed only under the mutex or before and after it by ordering through the mutex, `state_` is accessed under the mutex, and the counter is an atomic with acquire/release ordering whose final value orders the tasks' stores before the caller's reads.
* Floating point is `SpecFloat` (binary32 and binary64, round to nearest even) without excess precision (FLT_EVAL_METHOD 0) and without fused multiply-add. `FloatProofs*.v` prove that these operations round correctly.

## What is modelled

| code | model | remarks |
|---|---|---|
| `internal/common.h`, `kernel.h`, `block_params.h` | `CommonModel.v`, `BlockIntModel.v` (block sizes in `int`), `requests_int`, `run_pos_int`, `result_offset_int` in `BufferProofs.v` (buffer sizes and positions in `int`) | the float `l2_rhs_factor` is an arbitrary conversion function |
| `internal/pack.h`, `public/map.h` | `PackModel.v` | generic path; uint8 sources (the generic code does not compile for int8 ones); prefetches omitted |
| `internal/pack_sse.h`, `pack_avx.h`, `pack_neon.h` | `PackSimdModel.v` | registers as lists of lanes; with int8 inputs the source orders that do not compile are `None` |
| `internal/pack_msa.h` | `PackMsaModel.v` | registers as lists of lanes |
| `internal/compute.h`, `kernel_reference.h` | `ComputeModel.v` | |
| `internal/output.h`, `simd_wrappers.h`, `public/output_stages.h` | `OutputModel.v` | scalar register blocks (one lane) |
| `internal/output_sse.h`, `output_neon.h`, `output_msa.h`, `simd_wrappers_sse.h`, `simd_wrappers_neon.h`, `simd_wrappers_msa.h`, `simd_wrappers_common_neon_sse.h` | `OutputSimdModel.v` | registers are numbers; overloads that do not exist for a target are `None`; the three variants of the MSA stores (revision 6, earlier revisions, no assembly) are a parameter; a pair `swr`, `swl` is one word store, justified by `C61_swr_swl_store_the_word` |
| `internal/unpack.h` | `UnpackModel.v` | result as a list of stores |
| `internal/single_thread_gemm.h`, GEMM part of `multi_thread_gemm.h`, `dispatch_gemm_shape.h`, `public/gemmlowp.h` | `GemmModel.v` | each scratch buffer is a separate memory with arbitrary contents; tasks of one Execute call are interleaved arbitrarily |
| worker pool of `multi_thread_gemm.h` | `PoolModel.v` | one step per shared-memory operation; the `thread_count == 1` path is in `GemmModel.v` |
| `internal/allocator.h` | `AllocatorModel.v` | 64-bit size_t |
| `fixedpoint/fixedpoint.h` | `FixedPointModel.v` | scalar raw types |
| `fixedpoint/fixedpoint_sse.h`, `fixedpoint_neon.h` | `SimdModel.v` | |
| `fixedpoint/fixedpoint_avx.h`, `fixedpoint_wasmsimd.h`, `fixedpoint_msa.h` | `SimdModel2.v` | 256-bit AVX registers; most AVX2 instructions act on each half like the SSE ones |
| `internal/kernel_sse.h`, `kernel_avx.h` (assembly) | `X86Model.v`, `X86Kernels.v` | transcribed by `tools/gen_x86_kernels.py`; general registers unbounded |
| `internal/kernel_neon.h` (assembly) | `ArmModel.v`, `ArmKernels.v` | transcribed by `tools/gen_arm_kernels.py`; general registers unbounded, so the 32-bit view of the dotprod loop counter is exact; the `.word` encodings of UDOT are decoded by `udot_of_word` |
| `internal/kernel_msa.h` (assembly) | `MsaModel.v`, `MsaKernels.v` | transcribed by `tools/gen_msa_kernels.py`; general registers unbounded |
| `internal/kernel_default.h`, `public/bit_depth.h` | `SelectModel.v` | template specialisation as a lookup; an ambiguity or an empty primary template is `None` |
| `eight_bit_int_gemm/eight_bit_int_gemm.cc` | `EightBitModel.v` | client buffers are separate memories |
| `meta/` GEMM for ARM64 | `MetaModel.v` | generated assembly described by one definition per family, not instruction by instruction |
| `meta/` transforms for ARM: `transform_kernels_arm_64.h`, `transform_kernels_arm_32.h`, `transform_kernels.h`, `single_thread_transform.h`, `multi_thread_transform.h` | `TransformModel.v`, `TransformKernels.v`, `TransformKernels32.v` | instructions transcribed by `tools/gen_transform.py`, which checks the control flow of all 80 kernels of each processor; a lane read at another width than it was written with is unknown; pointers are element indices; input, bias and output do not overlap; `prfm` and `pld` omitted; ARM64 in its default floating-point mode, 32-bit ARM vectors flush to zero |
| `doc/quantization_example.cc` | `QuantModel.v` | printing omitted |
| `profiling/instrumentation.h`, `profiler.h` | `ProfilerModel.v`, `ProfileTreeModel.v` | addresses of ThreadInfo objects are not reused; text formatting omitted |

## What is not modelled

* `output_avx.h` is an empty file. Big-endian MSA processors.
* The 32-bit ARM meta GEMM kernels, benchmarks, tests and `standalone/`.
* Performance, caches, NUMA, timing (spinning, sleeping and NOPs have no effect in the model).
* Compilers: in particular the asm statements modify registers declared as inputs only (`run_depth_cells` in the SSE and AVX kernels, `dst_col_stride` in most NEON kernels). The C++ compiler may assume that such a register is unchanged; the model gives the assembly private copies.

## Simplifications that matter when reading the theorems

* GEMM: sizes, strides and addresses do not overflow (for the block sizes C69 gives the bounds, for the sizes of the packed and result buffers and the positions in them C70); where 32-bit overflow is possible (`int32_safe`, `threads_ok`) the hypotheses say so. The operands and the result do not overlap.
* Kernel contract (`KernelSpec.v`): a kernel may read the packed data up to the next multiple of the register size, which packing fills with zeros, and specifies only rows and columns whose padding is zero. `kernel_correct_on ok` further restricts the pairs of values that may be multiplied. `kernel_correct_behind n` lets the kernel also read n bytes behind the packed right operand. The GEMM theorems ask for `kernel_usable`, which is n = 64: behind the packed bytes the allocator always places the block of sums, and `block_view` in `PackModel.v` gives the kernel these bytes too. Packing, in contrast, may not write outside the packed bytes. Only the AVX2 kernel needs the bytes behind; every other kernel is proved with n = 0 (`kernel_correct`).
* A kernel in the GEMM theorems is a function of its arguments. The model of a kernel also names the code that packs for it (`k_pack`): the vectorised code for the SSE, AVX2, NEON and MSA kernels, so the GEMM theorems about these kernels cover it. It also names the code that unpacks the result (`k_out`): the SSE code for the SSE kernels, the NEON code for the NEON kernels, the MSA code for the MSA kernels, the scalar code otherwise. An AVX2 build does not define `GEMMLOWP_SSE4`, so its output code is the scalar one. `vector_safe` in `GemmContract.v` says which pipelines and values the vectorised code handles like the scalar code; it asks that the pipeline exists for the target, that offsets and vectors are int32 values, and that left shifts by positive exponents do not overflow. For the assembly kernels the previous register contents are a fixed parameter; C54, C57, C64 and C66 prove that they have no influence.
* Profiler: SC interleavings; a pthread key leak per thread, the `ProfilerThread() == pthread_self()` assertion race and the reuse of ThreadInfo addresses are outside the model; `IsProfiling` is written outside the lock.
* EightBitIntGemm: the inputs of a call are read when its GEMM starts.

## Findings

The refuted theorems record behaviour that differs from what a reader would expect: for instance the rounding of ties in the output stages, `RoundUpToPowerOfTwo` above 2^32, results left unwritten for depth 0, `tanh`/`logistic` at the minimum input, stale scratch when `k == 0`, scratch size truncation, cache-friendly Meta estimates, the profiler's races, the SSE `All`, `All` and `Any` on AVX, the AVX2 kernel's over-read (harmless in a GEMM, where it reads the sums: `C55_gemm_avx2`), the SSE and AVX kernels' extra cell, a division by zero in `block_params.h` for depth 2^28 − 16 on 16 threads (C69), a scratch storage of 0 bytes on x86-64 for a 50000 × 50000 left operand if `int` wraps around (C70), and the choice of an int8 kernel for lhs ranges such as [0,127], where a product of zeros gives −524288.

Tolerances in `test/test_fixedpoint.cc`: the tests pass on their sampled arguments, but exp on (−1/4, 0) with 16 bits, 1/(1+x), (1−x)/(1+x) and the 16-bit logistic function exceed the stated tolerance by one or two units elsewhere (C63).

Observed but not stated as theorems:

* Int8 inputs are packed only from row-major left and column-major right operands: for the other orders the generic packing code would be instantiated, and it builds a `SideMap<const std::uint8_t>` from the source (`pack.h` 270), which does not compile. The model makes this `None` (C64).
* `dispatch_gemm_shape.h` swaps the operands when rows < cols but keeps `BitDepthParams`, so `L8R8WithLhsNonzeroBitDepthParams` then constrains the other operand. It is harmless because overflow of the int8 kernels needs −128 in both operands.
* `MetaTask` of the legacy multi-threaded Meta code keeps a `const F&` to a temporary.
* The header comment of `SetMaxNumThreads` and the default of the context disagree (`multi_thread_gemm.h` 563).
* With `run_depth == 0` the x86 kernels would loop for about 2^32 iterations; callers never pass 0.
* Some output stages have no vectorised code: `SaturatingCastToInt8` and `ScaleInt32ByFixedPointAndExponentPC` on SSE, `TruncatingCastToUint8` on any vector tile, `BiasAddition` with a `VectorDup` for 4x4 and 8x4 tiles, and any stage behind a cast. Such pipelines do not compile for the target; in the model they are `None`, and `pipe_ty` excludes them.
* The ARM64 transform kernels (C67): Requantize rounds to nearest (`fcvtns`) while Quantize truncates (`fcvtzs`). `meta/test_transform_correctness.cc` expects truncation in both, so as written it fails on ARM64 at its first element (9 instead of 8). BiasAdd ignores `input_range_offset` and `bias_range_offset`. A transform of no elements, or a BiasAdd of no rows, counts past zero and never ends. MinMax with `min > max` gives `max`, the formula of the test gives `min`. The asm of BiasAdd modifies `rows`, declared as an input only. `EstimateComputeCost` overflows `int` above 178956970 elements. On 32-bit ARM (C68) Requantize truncates, as the test expects, but leaves out `output_range_offset` (0 in the test).
* The AVX2 kernel is named 24x8 but its format has 4 columns.

## Seeded bugs

`tools/seed.py` applies an edit to a scratch copy, rebuilds and records which theorems fail. A failing proof script alone shows only that the script broke, so examples with concrete values stand beside the theorems and fail by computation when a definition changes its result.
