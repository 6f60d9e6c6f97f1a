{"id": "C01", "title": "GEMM computes the offset matrix product", "statement": "After GemmWithOutputPipeline/GemmWithOutputPipelinePC returns on non-degenerate shapes, every entry (r,c) of the result map holds exactly the output pipeline applied, at position (r,c), to the int32 value congruent mod 2^32 to sum over d of (lhs(r,d)+lhs_offset(r))*(rhs(d,c)+rhs_offset(c)).", "quantifier": "all matrix sizes >0, all strides and storage orders of the three maps, all uint8 operand contents, all int32 offsets (scalar or per-row/per-column), all output pipelines, all kernel formats, all cache-size settings, all prior contents of scratch memory and of the result", "why_tests_cant": "Block/edge handling depends on sizes modulo several tile sizes and on cache parameters jointly; tests sample a few hundred shapes out of an unbounded space.", "anchors": ["public/gemmlowp.h: GemmWithOutputPipelinePC", "internal/single_thread_gemm.h: SingleThreadGemm", "internal/pack.h", "internal/compute.h", "internal/unpack.h", "internal/kernel_reference.h"]}
{"id": "C02", "title": "GEMM writes only the result matrix", "statement": "A GEMM call changes no memory cell other than the rows*cols entries addressed by the result map: stride gaps, bytes before/after the map and both operands keep their values.", "quantifier": "all shapes, strides, orders, contents, pipelines, thread counts and schedules", "why_tests_cant": "A test only sees the guard bytes it plants for the shapes it tries.", "anchors": ["internal/unpack.h: UnpackResult", "internal/output.h: OutputPipelineExecutor", "public/map.h: MatrixMap"]}
{"id": "C03", "title": "GEMM never accesses memory out of bounds", "statement": "During a GEMM call every read of lhs/rhs falls on an entry of its map, every read of an offset/bias vector falls on an index inside that vector, every access to packed blocks, sums and accumulators falls inside the reserved buffer, and every store falls on an entry of the result map.", "quantifier": "all shapes, strides, orders, kernel formats and cache settings", "why_tests_cant": "Sanitizers observe only executed shapes; over-reads inside a larger allocation are invisible to them.", "anchors": ["internal/pack.h: PackSideBlockImpl", "internal/compute.h: ComputeImpl", "internal/unpack.h", "internal/block_params.h"]}
{"id": "C04", "title": "Accumulation is exact and free of signed overflow in the documented range", "statement": "If depth*255*255 and the offset-corrected sums stay within int32, no intermediate 32-bit addition or multiplication in packing, kernel or unpacking overflows (including on padding lanes and stale scratch lanes), so the accumulator equals the exact integer sum; without the bound the result is still the exact sum mod 2^32 under wrap-around arithmetic.", "quantifier": "all operand values, depths, offsets; all orders in which partial sums are formed", "why_tests_cant": "Overflow needs extreme contents at extreme depth; partial sums depend on blocking.", "anchors": ["internal/kernel_reference.h: ReferenceKernel::Run", "internal/pack.h: PackingRegisterBlockBase::Pack", "internal/unpack.h: UnpackResultBlock"]}
{"id": "C05", "title": "Results do not depend on tuning parameters or history", "statement": "Two GEMM calls with the same operands, offsets and pipeline produce identical results whatever l1/l2 cache sizes, L2 rhs factor, kernel format, scratch contents, or previous result contents are in force.", "quantifier": "all pairs of settings, all pairs of scratch/garbage contents, all operand data", "why_tests_cant": "Relational (two-run) property over unbounded settings; a test compares a handful of settings.", "anchors": ["internal/single_thread_gemm.h: SingleThreadGemmContext", "internal/block_params.h: BlockParams", "internal/allocator.h"]}
{"id": "C06", "title": "Multi-threaded GEMM equals single-threaded GEMM under every schedule", "statement": "For every requested thread count and every interleaving of the worker threads' memory writes, when the multi-threaded GEMM call returns the result matrix is entry for entry what the single-threaded GEMM would have produced.", "quantifier": "all thread counts, all interleavings of the tasks' individual stores, all shapes", "why_tests_cant": "The number of schedules is exponential; tests see the ones the OS happens to produce.", "anchors": ["internal/multi_thread_gemm.h: MultiThreadGemm, GemmWithPackedRhsTask, WorkersPool"]}
{"id": "C07", "title": "The task split partitions the rows", "statement": "The row ranges handed to the tasks are consecutive, disjoint, cover [0,rows) exactly, and every boundary except the last is a multiple of the kernel's row count; no task writes a result entry outside its own range, so tasks are free of data races on the result.", "quantifier": "all row counts, all task counts, all kernel row counts", "why_tests_cant": "Depends on rounding of rows*(n+1)/tasks for unbounded rows and tasks.", "anchors": ["internal/multi_thread_gemm.h: MultiThreadGemm lines 693-711"]}
{"id": "C08", "title": "Thread count policy stays within bounds", "statement": "The number of tasks chosen is at least 1, never exceeds the caller's maximum (or the hardware concurrency when 0 is requested), is 1 for a maximum of 1, and never exceeds what the minimum cubic work per thread and rows per kernel allow.", "quantifier": "all max_num_threads values, all shapes", "why_tests_cant": "Bounds for all inputs of an arithmetic heuristic with divisions and clamps.", "anchors": ["internal/multi_thread_gemm.h: HowManyThreads", "internal/platform.h: GetHardwareConcurrency"]}
{"id": "C09", "title": "Shape dispatch by transposition is transparent", "statement": "When rows<cols the library computes the transposed product with swapped operands, offsets and transposed pipeline stages; the caller-visible result is identical to the untransposed computation, including row/column orientation of bias, per-channel multipliers and exponents.", "quantifier": "all shapes, orders, pipelines of any length with any mix of row and column vectors", "why_tests_cant": "Combination of stage types x orientation x shape is unbounded (pipelines of any length).", "anchors": ["internal/dispatch_gemm_shape.h: DispatchGemmShape, TransposeImpl, TransposeTuple"]}
{"id": "C10", "title": "Degenerate shapes are no-ops", "statement": "If any of rows, cols or depth is zero the call returns without touching memory: in particular with depth 0 and a non-empty result the entries are left as they were (not set to the pipeline of 0).", "quantifier": "all shapes with a zero dimension, all prior result contents", "why_tests_cant": "The depth-0 behaviour differs from the mathematical product for every prior content; tests do not specify it.", "anchors": ["internal/dispatch_gemm_shape.h lines 185-189"]}
{"id": "C11", "title": "Worker pool runs every task exactly once before Execute returns", "statement": "For every interleaving of the calling thread and worker threads, when WorkersPool::Execute returns each submitted task's Run has been executed exactly once, in full, and no worker is still running a task of that batch.", "quantifier": "all task counts >=1, all worker counts, all interleavings, all spurious wakeups", "why_tests_cant": "Schedules and spurious wake-ups cannot be enumerated by a test.", "anchors": ["internal/multi_thread_gemm.h: WorkersPool::Execute, Worker, BlockingCounter"]}
{"id": "C12", "title": "Worker pool cannot deadlock and terminates", "statement": "From every reachable state some thread can make progress until Execute has returned: there is no lost wake-up, and every fair schedule reaches the return of Execute.", "quantifier": "all reachable states of caller+workers", "why_tests_cant": "Liveness cannot be observed by a terminating test.", "anchors": ["internal/multi_thread_gemm.h: WaitForVariableChange, Worker::ChangeState, Worker::ThreadFunc, BlockingCounter"]}
{"id": "C13", "title": "Worker pool can be reused and shut down cleanly", "statement": "A pool may be reused for any sequence of batches of any sizes (growing the workers on demand), no batch observes a task of another one, none of the state-transition aborts is reachable, and destroying the pool when idle terminates every worker thread and returns.", "quantifier": "all sequences of Execute calls followed by destruction, all interleavings", "why_tests_cant": "History-dependent (state carried between batches) and schedule-dependent.", "anchors": ["internal/multi_thread_gemm.h: WorkersPool, Worker::~Worker, Worker::ChangeState"]}
{"id": "C14", "title": "Allocator hands out disjoint, aligned, in-bounds blocks", "statement": "After Reserve* then Commit, every handle resolves to a 64-byte-aligned address range lying inside the committed storage and the ranges of different handles never overlap; Reserve of n elements gives at least n elements of room.", "quantifier": "all sequences of at most the supported number of reservations, all sizes, all histories of commit/decommit", "why_tests_cant": "All histories and sizes; overlap appears only for particular size residues.", "anchors": ["internal/allocator.h: Allocator::Reserve, Commit, GetPointer"]}
{"id": "C15", "title": "Stale or misused allocator handles are rejected", "statement": "A handle obtained before a Decommit is never resolved after it (generation check), handles cannot be resolved before Commit, reservation is impossible while committed, and the storage never shrinks while reservations fit (so a repeated reservation pattern allocates no new memory).", "quantifier": "all operation sequences on the allocator", "why_tests_cant": "Property of all histories.", "anchors": ["internal/allocator.h: Allocator::Commit, Decommit, GetPointer"]}
{"id": "C16", "title": "Blocking parameters are always well formed", "statement": "For every shape, thread count and cache configuration the computed L1/L2 block sizes are positive, multiples of the kernel/register granularity, L1 sizes never exceed L2 sizes (so no block is empty), L2 depth covers the whole depth, and none of the asserts in the blocking code or in Compute fires.", "quantifier": "all rows/cols/depth >0, all thread counts >=1, all cache sizes (even absurd), any L2 rhs factor, all kernel formats", "why_tests_cant": "Nested divisions over five unbounded parameters.", "anchors": ["internal/block_params.h: BlockParams::FindL2BlockSizes, FindL1BlockSizes"]}
{"id": "C17", "title": "Packing is a faithful rearrangement with zero padding", "statement": "Packing a side block stores each source entry (minus the zero point) at a unique location determined by its width and depth, pads the remainder of each register block with the value that contributes zero to products, and produces for each slice the exact sum (mod 2^32) of its packed values.", "quantifier": "all widths, depths, strides, source orders, kernel side formats, block parameters", "why_tests_cant": "All residues of the sizes modulo tile sizes.", "anchors": ["internal/pack.h: PackSideBlockImpl::PackL2, PackRun, PackingRegisterBlockBase"]}
{"id": "C18", "title": "Cell layouts are bijections", "statement": "For each cell order, the map from (width, depth) inside a cell to byte offset is a bijection onto [0,width*depth), so packed entries never alias.", "quantifier": "all cell widths and depths, the three cell orders (Diagonal with width=depth)", "why_tests_cant": "All sizes of cells.", "anchors": ["internal/kernel.h: OffsetIntoCell"]}
{"id": "C19", "title": "Every result entry is stored exactly once", "statement": "Within one GEMM call each entry of the result is stored exactly once, by the 8x8/8x4/4x4/1x4/8x1/4x1/1x1 tiles covering each block, for both storage orders.", "quantifier": "all block shapes and both result orders", "why_tests_cant": "Depends on sizes modulo 8 and 4 and on blocking.", "anchors": ["internal/unpack.h: UnpackResult lines 129-276"]}
{"id": "C20", "title": "SaturatingRoundingDoublingHighMul is exact rounding with a single saturating case", "statement": "For int32 (and int16) a,b: the result is the integer nearest to a*b/2^31 (2^15), ties toward +infinity, and saturates to the maximum only when a=b=minimum; no undefined behaviour occurs.", "quantifier": "all 2^64 pairs of int32, all 2^32 pairs of int16", "why_tests_cant": "2^64 input pairs.", "anchors": ["fixedpoint/fixedpoint.h: SaturatingRoundingDoublingHighMul"]}
{"id": "C21", "title": "RoundingDivideByPOT rounds to nearest, ties away from zero", "statement": "For int32 x and exponent 0..31, the result is x/2^exponent rounded to the nearest integer with ties away from zero; for int16 likewise for exponents 0..15 (the header accepts larger ones: see the refutation).", "quantifier": "all 2^32 x and all exponents", "why_tests_cant": "2^37 input combinations.", "anchors": ["fixedpoint/fixedpoint.h: RoundingDivideByPOT"]}
{"id": "C22", "title": "SaturatingRoundingMultiplyByPOT is a clamped shift", "statement": "For a positive exponent E the result is clamp(x*2^E) to the type's range; for negative E it is the rounding division; for 0 the identity; consequently FixedPoint Rescale to fewer integer bits saturates and to more integer bits rounds.", "quantifier": "all int32 / int16 x, all exponents for which the template is defined", "why_tests_cant": "All values and template instances.", "anchors": ["fixedpoint/fixedpoint.h: ImplSaturatingRoundingMultiplyByPOT, Rescale"]}
{"id": "C23", "title": "RoundingHalfSum is the rounded average without overflow", "statement": "RoundingHalfSum(a,b) never overflows and equals (a+b)/2 rounded to nearest; its scalar version rounds ties away from zero, which differs from the documented NEON semantics (ties up) exactly on negative odd sums.", "quantifier": "all pairs of int32/int16", "why_tests_cant": "2^64 pairs.", "anchors": ["fixedpoint/fixedpoint.h: RoundingHalfSum"]}
{"id": "C24", "title": "SaturatingAdd is clamped addition", "statement": "SaturatingAdd on int16/int8 equals clamp(a+b); AddSaturatingIf16Bit saturates for 16-bit and is plain addition for 32-bit.", "quantifier": "all pairs of values", "why_tests_cant": "Exhaustive for one width is possible but not for the generic claim.", "anchors": ["fixedpoint/fixedpoint.h: SaturatingAdd, AddSaturatingIf16Bit"]}
{"id": "C25", "title": "Mask and select primitives behave as booleans", "statement": "MaskIf* return all-ones exactly when their comparison holds and zero otherwise, SelectUsingMask returns its second operand under an all-ones mask and the third under a zero mask; bit operations agree with two's complement bitwise operations.", "quantifier": "all int32/int16 values", "why_tests_cant": "All pairs of 32-bit values.", "anchors": ["fixedpoint/fixedpoint.h: MaskIfZero..., SelectUsingMask, BitAnd, BitNot"]}
{"id": "C26", "title": "FixedPoint multiplication is correctly rounded", "statement": "The product of two FixedPoint values has integer bits equal to the sum and a raw value within half a unit in the last place of the exact real product (saturating only for min*min); ExactMulByPot and One/ConstantPOT denote exactly the advertised reals.", "quantifier": "all raw values, all integer-bit splits, int32 and int16", "why_tests_cant": "All raw values and all template instances.", "anchors": ["fixedpoint/fixedpoint.h: FixedPoint, operator*, ExactMulByPot, FixedPoint::One"]}
{"id": "C27", "title": "exp_on_negative_values is in range, overflow-free and exact at zero", "statement": "For every non-positive raw input the evaluation performs no signed overflow, yields a value in [0, One], and yields exactly One on zero.", "quantifier": "all non-positive raw inputs, every number of integer bits, 32-bit and 16-bit", "why_tests_cant": "2^31 inputs per format and 32 formats.", "anchors": ["fixedpoint/fixedpoint.h: exp_on_negative_values, exp_on_interval_between_negative_one_quarter_and_0_excl"]}
{"id": "C28", "title": "logistic and tanh stay in range and respect symmetry", "statement": "For every raw input other than the minimum, tanh is odd and in [-One,One], logistic is in [0,One] with logistic(-a)=One-logistic(a), zero maps to zero / one half, and no signed overflow occurs; on the minimum value the code computes -min (overflow).", "quantifier": "all raw inputs and all integer-bit splits", "why_tests_cant": "2^32 inputs per format.", "anchors": ["fixedpoint/fixedpoint.h: tanh, logistic, neg_tanh_on_negative_values, logistic_on_positive_values, one_over_one_plus_x_for_x_in_0_1"]}
{"id": "C29", "title": "Newton reciprocal helpers are in range", "statement": "one_over_one_plus_x_for_x_in_0_1 and one_minus_x_over_one_plus_x_for_x_in_0_1 return, for all x in [0,1], values in [0,One] resp. within their nominal interval, without intermediate overflow.", "quantifier": "all raw x in [0, max]", "why_tests_cant": "2^31 inputs.", "anchors": ["fixedpoint/fixedpoint.h: one_over_one_plus_x_for_x_in_0_1, one_minus_x_over_one_plus_x_for_x_in_0_1"]}
{"id": "C30", "title": "Quantize-down stages compute the documented scaling", "statement": "OutputStageQuantizeDownInt32ToUint8Scale(PC) outputs (x+offset)*mult divided by 2^shift rounded to nearest (ties away from zero); the documented formula ((x+offset)*mult+rounding)>>shift agrees except on negative exact ties.", "quantifier": "all int32 x, offsets, multipliers for which the products fit, shifts 0..31, all positions", "why_tests_cant": "Unbounded parameter space; discrepancy only on ties.", "anchors": ["internal/output.h: OutputStageEvalBufferImpl<OutputStageQuantizeDownInt32ToUint8Scale>", "public/output_stages.h"]}
{"id": "C31", "title": "Fixed-point scaling stages approximate the real multiplier within rounding", "statement": "OutputStageQuantizeDownInt32ByFixedPoint and OutputStageScaleInt32ByFixedPointAndExponent(PC) output x*mult*2^exponent/2^31 + offset with an error bounded by the two roundings (less than one unit in total), are monotone in x for non-negative multipliers, and for exponent<=0 the exponent variant coincides with the shift variant.", "quantifier": "all int32 x, all multipliers, all shifts/exponents in the domain, all offsets that do not overflow", "why_tests_cant": "All 32-bit inputs and parameters.", "anchors": ["internal/output.h lines 121-221"]}
{"id": "C32", "title": "Bias, clamp and cast stages", "statement": "Bias addition adds bias[row] (column vector) or bias[col] (row vector); clamp returns min(max(x,lo),hi); saturating casts clamp to the destination range; the truncating cast is the identity on [0,255].", "quantifier": "all values and positions, all vector shapes", "why_tests_cant": "All values/positions.", "anchors": ["internal/output.h lines 223-354"]}
{"id": "C33", "title": "Pipelines evaluate entry-wise regardless of tiling", "statement": "Evaluating a pipeline on any register tile at (row,col) gives at each tile position exactly the composition of the scalar stage functions at that global position; hence results do not depend on which tile an entry falls in.", "quantifier": "all pipelines of any length, all tile shapes and positions", "why_tests_cant": "Unbounded pipelines x tile shapes x positions.", "anchors": ["internal/output.h: OutputPipelineEvalImpl, OutputPipelineExecutor", "internal/simd_wrappers.h: Broadcast*Impl, LoadForBroadcasting"]}
{"id": "C34", "title": "Standard uint8 pipeline is monotone and in range", "statement": "With a non-negative multiplier the standard pipeline (quantize down then saturating cast) is monotone in the accumulator and always yields a value in [0,255].", "quantifier": "all accumulators and parameters", "why_tests_cant": "Relational property over all pairs of accumulators.", "anchors": ["public/output_stages.h: MakeStandardOutputPipeline", "internal/output.h"]}
{"id": "C35", "title": "EightBitIntGemm honours its layout flags", "statement": "EightBitIntGemm with any combination of the three transpose flags computes c = clamp8(((a+a_off)(b+b_off)+c_off)*c_mult rounded /2^shift) with each matrix read/written row-major when its flag is set and column-major otherwise, with leading dimensions lda/ldb/ldc; exactly one of the eight instantiations runs; A5B7 behaves as A8B8.", "quantifier": "all flag combinations, sizes, leading dimensions, contents, offsets", "why_tests_cant": "Combination of flags and unbounded sizes.", "anchors": ["eight_bit_int_gemm/eight_bit_int_gemm.cc: EightBitIntGemm, EightBitIntGemmImpl"]}
{"id": "C36", "title": "Float-output EightBitIntGemm scales the exact accumulators", "statement": "The float overload writes to each result entry float(acc)*c_offset with acc the int32 accumulator, writes nothing else, and its scratch buffer is large enough, for every sequence of calls; with k=0 it instead exposes stale scratch contents.", "quantifier": "all sizes whose scratch size fits int32, all call histories", "why_tests_cant": "History dependent (scratch reuse).", "anchors": ["eight_bit_int_gemm/eight_bit_int_gemm.cc lines 338-402, Scratch::AssureSize"]}
{"id": "C37", "title": "EightBitIntGemm calls are serializable and history independent", "statement": "For concurrent callers, every execution is equivalent to running the calls one at a time in lock-acquisition order, each result depends only on that call's arguments, and FreePersistentResources/SetMaxNumThreads may be interleaved anywhere without changing any result.", "quantifier": "all interleavings of all client call sequences", "why_tests_cant": "All interleavings and histories.", "anchors": ["eight_bit_int_gemm/eight_bit_int_gemm.cc: global_context, global_scratch, ScopedLock", "profiling/instrumentation.h: ScopedLock"]}
{"id": "C38", "title": "Meta task split partitions the product", "statement": "The meta GEMM task preparation always produces at least one and at most max_threads rectangles, which are disjoint and cover the m x n result; the cache-friendly chunking of columns likewise partitions n.", "quantifier": "all m,n,k >=1 and thread counts >=1", "why_tests_cant": "Unbounded sizes, several regimes of the heuristic.", "anchors": ["meta/legacy_multi_thread_common.h: PrepareTasks", "meta/multi_thread_gemm.h: PrepareGemmTasks", "meta/legacy_multi_thread_gemm.h: CacheFriendlyMatrixMatrix"]}
{"id": "C39", "title": "Meta fast path is only taken for layouts it computes correctly", "statement": "Whenever the fast path is selected for a call, reading the operands as packed row-major a / packed column-major b and writing a packed result addresses the same elements as the general path would.", "quantifier": "all flags, sizes and leading dimensions", "why_tests_cant": "All sizes and leading dimensions; failing cases need vectors with non-unit stride.", "anchors": ["eight_bit_int_gemm/eight_bit_int_gemm.cc: CanHandleMetaFastpath, IsRowMajorOrVector, IsColumnMajorOrVector, MetaGemmQuantized8Bit"]}
{"id": "C40", "title": "Rounding helpers on sizes", "statement": "RoundUp/RoundDown/CeilQuotient return the nearest multiple above/below and the ceiling quotient; RoundUpToPowerOfTwo returns the smallest power of two not below a 32-bit argument (and fails to for larger size_t arguments).", "quantifier": "all non-negative integers in range", "why_tests_cant": "All integers.", "anchors": ["internal/common.h lines 136-169"]}
{"id": "C41", "title": "Signed int8 kernels never overflow 16-bit partial sums when lhs is nonzero", "statement": "With operands in [-128,127] and lhs excluding -128 (uint8 lhs excluding 0), the sum of two products fits int16, so the accumulate-two-within-16-bits scheme is exact; the restriction is necessary.", "quantifier": "all operand values", "why_tests_cant": "The unique failing combination needs two simultaneous extreme products.", "anchors": ["public/bit_depth.h: L8R8WithLhsNonzeroBitDepthParams", "internal/kernel.h: ZeroPointInputValue", "internal/kernel_neon.h"]}
{"id": "C42", "title": "A real multiplier below one is quantized without loss", "statement": "QuantizeMultiplierSmallerThanOne returns, for each float multiplier in (0,1), a multiplier in [2^30, 2^31) and a right shift in [0,148] with mult*2^(-31-shift) exactly equal to the input; the fixed point output stage configured with it multiplies every int32 accumulator by the input within 3/4 of a unit.", "quantifier": "all floats in (0,1), all int32 accumulators", "why_tests_cant": "There are 2^30 multipliers and 2^32 accumulators, the loop runs up to 148 times for denormals, and the round-up to 2^31 is a separate branch.", "anchors": ["doc/quantization_example.cc: QuantizeMultiplierSmallerThanOne", "public/output_stages.h: OutputStageQuantizeDownInt32ByFixedPoint"]}
{"id": "C43", "title": "Chosen quantization parameters represent zero exactly and every value in range within half a step", "statement": "ChooseQuantizationParams yields a zero point that is an integer in [0,255] unless the range is tiny; dequantizing it gives exactly 0 and quantizing 0 gives it; the error of a value in the range is at most (1/2+2^-12) scales; codes survive dequantizing and quantizing again; quantization is monotone and total.", "quantifier": "all float ranges, all floats, all codes", "why_tests_cant": "The ranges are pairs of floats, and the rounding errors of the scale, the zero point, the division and the addition interact.", "anchors": ["doc/quantization_example.cc: FindMinMax, ChooseQuantizationParams, Quantize, Dequantize"]}
{"id": "C44", "title": "Profiling label stacks stay balanced and bounded", "statement": "With scoped labels nested at most 30 deep, each thread's label stack equals the sequence of currently open scopes, no assertion fails, and a sample of a thread is exactly the labels of the scopes open when it is taken. (Update on an outer label object changes the innermost label instead.)", "quantifier": "all nestings/sequences of scopes on all threads, all sampling instants", "why_tests_cant": "All interleavings of sampling with scope entry/exit.", "anchors": ["profiling/instrumentation.h: ProfilingStack, ScopedProfilingLabel", "profiling/profiler.h: RecordStack"]}
{"id": "C45", "title": "Profile tree weights are conserved", "statement": "In the profile tree built from any set of sampled stacks the weight of a node equals the number of samples passing through it and, after adding the 'other' child, equals the sum of its children's weights when it has any; the printed lines are exactly one per label path passed through and one 'other' line (samples ending there) per path that some sample continues, siblings by decreasing weight.", "quantifier": "all finite sets of recorded stacks", "why_tests_cant": "All sample sets.", "anchors": ["profiling/profiler.h: ProfileTreeView"]}
{"id": "C46", "title": "SIMD lane formulas agree with scalar formulas", "statement": "Every lane of every SSE and NEON register operation of the fixed-point library (bit operations, sums, shifts, masks, selection, All/Any, half sums, saturating sums, doubling high products, divisions and multiplications by powers of two) is the scalar operation on that lane, except in the cases given by refuted theorems; and exp, 1/(1+x), (1-x)/(1+x), tanh and logistic on registers give the scalar result on every lane of their domain, whatever the other lanes hold.", "quantifier": "all 128-bit registers, all lanes, both lane widths, all exponents and numbers of integer bits of the domain", "why_tests_cant": "2^256 pairs of registers; the failing product is one pair of lane values in 2^64.", "anchors": ["fixedpoint/fixedpoint_neon.h", "fixedpoint/fixedpoint_sse.h", "fixedpoint/fixedpoint.h: RoundingDivideByPOT, SaturatingRoundingMultiplyByPOT, exp_on_negative_values, tanh, logistic"]}
{"id": "C47", "title": "Meta GEMM computes exactly the quantized product", "statement": "The Meta fast path stores in every entry of the result the value the general path specifies (rounded and clamped uint8, or float(acc)*scale), once, and nothing else, in every interleaving of its tasks, for any number of tasks; so do the int32 entry point and the single-threaded executors.", "quantifier": "all sizes with k in 8..2048, all bytes, offsets, thread counts and interleavings, within the int arithmetic and scratch limits stated", "why_tests_cant": "Unbounded sizes, 8 leftover cases in each of three dimensions, all interleavings.", "anchors": ["meta/single_thread_gemm.h", "meta/multi_thread_gemm.h", "meta/legacy_single_thread_gemm.h", "meta/legacy_multi_thread_gemm.h", "meta/legacy_multi_thread_gemv.h", "meta/quantized_mul_kernels_arm_64.h", "eight_bit_int_gemm/eight_bit_int_gemm.cc: MetaGemmQuantized8Bit, MetaGemmFloat"]}
{"id": "C48", "title": "Meta GEMM scratch estimates cover what is used", "statement": "EstimateScratchSize bounds the scratch bytes an executor touches; the legacy entry points' 1 MB per thread suffices for their chunking. (False for the cache friendly executors when the last task is larger, for long products of depth below 12, and for 2048 threads.)", "quantifier": "all sizes, strides, kernel sizes and cache sizes", "why_tests_cant": "The overruns need particular remainders or very long, shallow products.", "anchors": ["meta/single_thread_gemm.h: EstimateScratchSize, CalculateCacheFriendlyTasksCount", "meta/legacy_multi_thread_gemm.h: CacheFriendlyMatrixMatrix, gemm_q8_scratch", "eight_bit_int_gemm/eight_bit_int_gemm.cc: Scratch::AssureSize"]}
{"id": "C49", "title": "Meta packing preserves bytes and its 16-bit row sums are exact", "statement": "Packing copies every byte of every lane to its place, pads the last block with zeros, writes only inside the stream's PackedStride bytes, and the row sums accumulated in 16-bit lanes are exact for up to 2056 bytes per lane, which the k <= 2048 test of the fast path guarantees; at 2057 they can be wrong.", "quantifier": "all lane counts, depths, strides and byte values", "why_tests_cant": "The failing case needs more than 2056 extreme bytes; all 64 lane/leftover instances.", "anchors": ["meta/streams_arm_64.h", "meta/streams.h", "eight_bit_int_gemm/eight_bit_int_gemm.cc: CanHandleMetaFastpath"]}
{"id": "C50", "title": "A quantized matrix product is the real product up to a stated error", "statement": "Quantizing two float matrices, multiplying the codes with GemmWithOutputPipeline under the offsets, multiplier and shift derived from the three ranges, and dequantizing the result gives, for every entry whose exact value lies in the result range, that value up to (3/4+2^-13) result scales plus (1+2^-22)*depth*(A*e2+B*e1+e1*e2), where e = (1/2+2^-13) operand scales.", "quantifier": "all matrix sizes, float matrices, ranges, kernels and thread schedules", "why_tests_cant": "The bound composes float rounding, the integer GEMM, the fixed point stage and saturation over unbounded sizes; tests sample a few matrices.", "anchors": ["doc/quantization_example.cc: main", "public/gemmlowp.h: GemmWithOutputPipeline", "public/output_stages.h"]}
{"id": "C51", "title": "Each profiler tick samples every registered thread exactly once", "statement": "Between the start and the end of a tick the profiler takes one sample of each thread registered and not yet exited, in order of address, and no other; FinishProfiling's report holds exactly the samples taken since StartProfiling.", "quantifier": "all programs, numbers of threads and interleavings", "why_tests_cant": "Registration, exit, start and finish interleave with the sampling loop at every point.", "anchors": ["profiling/profiler.h: ProfilerThreadFunc, StartProfiling, FinishProfiling", "profiling/instrumentation.h: RegisterCurrentThreadForProfiling"]}
{"id": "C52", "title": "The profiler does not deadlock, race or read freed stacks", "statement": "With balanced scopes and profiling controlled from one thread, a thread that cannot go on waits for one that can; label stacks, the thread set and IsProfiling are free of data races; threads may exit while profiled. (False for ProfilerThreadShouldFinish, for the thread count read while printing, and for the order of thread-exit destructors that deletes the ThreadInfo first.)", "quantifier": "all programs, numbers of threads and interleavings", "why_tests_cant": "The failing interleavings are a few instructions wide.", "anchors": ["profiling/profiler.h: RecordStack, ProfilerThreadFunc, StartProfiling, FinishProfiling, ProfileTreeView::Print", "profiling/instrumentation.h: ThreadInfo, ThreadLocalThreadInfo"]}
{"id": "C53", "title": "The SSE4 assembly kernels compute the product they are used for", "statement": "Executed instruction by instruction, the 64-bit and the 32-bit SSE4 kernels meet the kernel contract of the GEMM theorems: every destination entry becomes, or is increased by, the dot product modulo 2^32, nothing else changes, and only packed data is read; hence a whole GEMM on them stores the specified result. (False when the packed data stops at run_depth: for an odd number of cells above one they read and add one cell more.)", "quantifier": "all run depths, packed bytes, strides, start depths and old values", "why_tests_cant": "The extra cell is invisible as long as packing pads with zeros; unbounded depths and 2^(8*depth) data.", "anchors": ["internal/kernel_sse.h: SSE4_32_Kernel4x4Depth2::Run, SSE4_64_Kernel12x4Depth2::Run", "internal/compute.h: ComputeRun", "internal/pack.h: padding"]}
{"id": "C54", "title": "The SSE4 and AVX2 kernels do not depend on the previous contents of registers and flags", "statement": "Two runs of an SSE4 or AVX2 kernel that differ only in the previous contents of the vector registers, scratch registers and flags end with the same memory.", "quantifier": "all register contents, depths and data", "why_tests_cant": "2^(128*16) register contents; a missing initialisation shows only for unlucky values.", "anchors": ["internal/kernel_sse.h", "internal/kernel_avx.h"]}
{"id": "C55", "title": "The AVX2 kernel computes the product but reads 8 bytes behind the packed rhs", "statement": "With 8 more readable bytes behind the packed right operand the AVX2 kernel stores every dot product and nothing else; without them it reads outside the block, since it loads 16 bytes where a cell has 8. In a GEMM the allocator places the sums behind the block, so a whole GEMM on the kernel stores the specified result.", "quantifier": "all run depths, packed bytes, bytes behind them, strides, start depths and old values; all GEMM problems", "why_tests_cant": "The over-read lands in the allocator's next region, so no test or sanitizer notices it.", "anchors": ["internal/kernel_avx.h: AVX2_64_Kernel24x8Depth2::Run", "internal/allocator.h: Reserve", "internal/pack.h: PackedSideBlock"]}
{"id": "C56", "title": "The NEON uint8 kernels compute the product they are used for", "statement": "Executed instruction by instruction, the 32-bit 12x4, the 64-bit 12x8 and the 64-bit dot-product kernels meet the kernel contract of the GEMM theorems: every destination entry becomes, or is increased by, the dot product modulo 2^32, nothing else changes, and only packed data is read; hence a whole GEMM on them stores the specified result.", "quantifier": "all run depths, packed bytes, strides, start depths and old values", "why_tests_cant": "Software-pipelined assembly over unbounded depths; needs three different processors.", "anchors": ["internal/kernel_neon.h: NEON_32_Kernel12x4Depth2::Run, NEON_64_Kernel12x8Depth2::Run, NEON_64_Kernel12x8Depth4_dotprod::Run"]}
{"id": "C57", "title": "The NEON kernels do not depend on the previous contents of registers, flags and local memory", "statement": "Two runs of a NEON kernel that differ only in the previous contents of the vector registers, scratch registers, flags and local memory end with the same result memory, and need only run_depth levels of packed data.", "quantifier": "all register contents, depths and data", "why_tests_cant": "2^(128*32) register contents; a missing initialisation shows only for unlucky values.", "anchors": ["internal/kernel_neon.h"]}
{"id": "C58", "title": "The NEON kernel for 12-bit products computes the product when all products are below 4096", "statement": "NEON_32_Kernel12x4Depth2Assuming12BitProducts, executed instruction by instruction, accumulates in 16-bit lanes and a local array; when every product of two entries is below 4096 it meets the kernel contract and a whole GEMM on it stores the specified result. The bound is sharp: with products of 4096 a sum wraps to 0.", "quantifier": "all run depths, packed bytes with products below 4096, strides, start depths and old values", "why_tests_cant": "The 16-bit sums wrap only for 16 extreme products in a row; unbounded depths, needs an ARM processor.", "anchors": ["internal/kernel_neon.h: NEON_32_Kernel12x4Depth2Assuming12BitProducts::Run"]}
{"id": "C59", "title": "The kernel chosen from the operand ranges serves every GEMM whose operands lie in the ranges", "statement": "For unsigned ranges on NEON, SSE4, AVX2, MSA and the portable target: a kernel is chosen unless the maxima multiply to less than 4096 while the lhs range excludes 0 or ends at 127 at most; the chosen kernel computes every GEMM within the ranges, except that on NEON (without dot-product) and MSA an lhs range from 0 to at most 127 with a rhs range from 0 is taken for 'lhs never zero', and then zero operands give wrong results.", "quantifier": "all pairs of unsigned operand ranges, targets and GEMMs within the ranges", "why_tests_cant": "Tests use only the predefined ranges; each pair of ranges is a separate compilation on each target.", "anchors": ["internal/kernel_default.h: DefaultKernelImpl, DefaultKernel", "public/bit_depth.h"]}
{"id": "C60", "title": "The vectorised packing code packs like the generic code", "statement": "For every kernel side format, the SSE4, AVX2, NEON and MSA packing code puts every byte of a complete register block where the kernel format wants it, adds the slice sums, moves on by one block and changes nothing else: the same memories as after the generic code. Hence whole operands are packed as in C17 on these targets. The NEON and MSA code needs a register size of exactly 16.", "quantifier": "all formats, register blocks, source bytes, strides, positions, previous sums and previous buffer contents", "why_tests_cant": "Shuffle networks per target and source order; a wrong lane shows only for particular formats and positions, and needs each processor.", "anchors": ["internal/pack_sse.h: PackingRegisterBlock::Pack", "internal/pack_avx.h: PackingRegisterBlock::Pack", "internal/pack_neon.h: PackingRegisterBlock::Pack", "internal/pack_msa.h: PackingRegisterBlock::Pack"]}
{"id": "C61", "title": "The vectorised output code stores what the scalar output code stores", "statement": "On SSE, NEON and MSA, unpacking a block of accumulators through registers (loads, broadcasts, output stages, saturating casts, transpositions and stores) stores each entry of the block exactly once, nothing else, and the same values as the scalar code, which are the pipeline applied entry by entry. This needs a pipeline that exists for the target, int32 parameters, left shifts that do not overflow and, on SSE, no product of two minima; in those cases the value depends on the position of the entry in its tile.", "quantifier": "all block sizes and positions, result orders, strides, accumulators, offsets, pipelines and previous buffer contents", "why_tests_cant": "Separate shuffle code per tile shape, type, order and target; a wrong lane shows only for particular tile shapes, and needs all three processors.", "anchors": ["internal/output_sse.h", "internal/output_neon.h", "internal/output_msa.h", "internal/simd_wrappers_sse.h", "internal/simd_wrappers_neon.h", "internal/simd_wrappers_msa.h", "internal/simd_wrappers_common_neon_sse.h", "internal/unpack.h: UnpackResult"]}
{"id": "C62", "title": "The fixed-point exp, logistic and tanh are close to the real functions", "statement": "exp_on_negative_values, logistic and tanh return, for every argument and every number of integer bits, a value within a fixed number of units in the last place of the real function: 5, 20 and 38 units with 16 bits, 495, 175 and 348 units with 32 bits. With 32 bits the error of exp really exceeds 472 units.", "quantifier": "all raw arguments (not the most negative one for logistic and tanh), widths 16 and 32, all admissible numbers of integer bits", "why_tests_cant": "2^31 arguments for each of 30 formats, and the reference is a transcendental function; tests sample arguments and compare with rounded doubles.", "anchors": ["fixedpoint/fixedpoint.h: exp_on_negative_values, logistic, tanh"]}
{"id": "C63", "title": "Which of the tolerances used by the fixed-point tests hold for every argument", "statement": "With 32 bits, exp on (-1/4, 0) and exp on negative values differ from the nearest representable value by at most the tested tolerance of 500 for every argument. The tested tolerances for exp on (-1/4, 0) with 16 bits (1), 1/(1+x) (5 with 16 bits, 6 with 32), (1-x)/(1+x) (11, 12) and logistic with 16 bits (6) are exceeded for arguments that the tests do not sample.", "quantifier": "all 32-bit arguments and numbers of integer bits for the positive part", "why_tests_cant": "The tests check only sampled arguments, and pass although the tolerance is exceeded elsewhere.", "anchors": ["test/test_fixedpoint.cc: Tolerance", "fixedpoint/fixedpoint.h"]}
{"id": "C64", "title": "A GEMM of int8 matrices stores the specified result", "statement": "On NEON, with a row-major lhs of int8 entries other than -128 and a column-major rhs of int8 entries, the kernels NEON_32bit/64bit_GEMM_Int8Operands_LhsNonzero_Int8Inputs and the packing code for int8 inputs compute every entry of the product with offsets, and the dispatch, blocking and threads store the pipeline applied to it. The operand ranges select such a kernel exactly when the lhs minimum is above -128, the lhs maximum at most 127 and the product of the maxima at least 4096; smaller signed ranges have no kernel on any target, and other storage orders do not compile. The previous contents of registers, flags and local memory do not influence what the kernels store.", "quantifier": "all sizes, strides, int8 entries, offsets, pipelines, block sizes, thread counts, interleavings, signed operand ranges and previous memory contents", "why_tests_cant": "Needs an ARM processor; only one pair of ranges is tested; overflow of the 16-bit sums needs extreme entries side by side.", "anchors": ["internal/kernel_neon.h: NEON_32bit_GEMM_Int8Operands_LhsNonzero_Int8Inputs, NEON_64bit_GEMM_Int8Operands_LhsNonzero_Int8Inputs", "internal/pack_neon.h", "internal/kernel_default.h"]}
{"id": "C65", "title": "AVX, WebAssembly and MSA registers compute the scalar fixed-point operations lane by lane", "statement": "Every lane of every register operation of fixedpoint_avx.h, fixedpoint_wasmsimd.h and fixedpoint_msa.h is the scalar operation on that lane, except in the cases given by refuted theorems (Any and All on AVX hold of every register; AVX squares the 32-bit minimum to the minimum; 16-bit shifts and divisions by 2^16 on WebAssembly and MSA; selection by non-masks with 32 bits on AVX); and exp, 1/(1+x), (1-x)/(1+x), tanh and logistic on registers give the scalar result on every lane of their domain, whatever the other lanes hold.", "quantifier": "all 128-bit (256-bit for AVX) registers, all lanes, both lane widths, all exponents and numbers of integer bits of the domain", "why_tests_cant": "2^512 pairs of AVX registers; needs three processors; the failing product is one pair of lane values in 2^64.", "anchors": ["fixedpoint/fixedpoint_avx.h", "fixedpoint/fixedpoint_wasmsimd.h", "fixedpoint/fixedpoint_msa.h", "fixedpoint/fixedpoint.h: RoundingDivideByPOT, SaturatingRoundingMultiplyByPOT, exp_on_negative_values, tanh, logistic"]}
{"id": "C66", "title": "The MSA kernels compute the product of the packed blocks, and GEMMs on them store the specified result", "statement": "Executed instruction by instruction, MSA_Kernel12x8Depth2 and MSA_GEMM_Int8Operands_LhsNonzero add (or store) the product of the packed blocks to the destination, write nothing else, read only the packed levels and do not depend on previous register contents; the int8 kernel as long as no -128 meets a -128, which is necessary. Together with the MSA packing and output code, every GEMM on the uint8 kernel stores the specified result, and every GEMM whose left operand has no zero on the int8 kernel.", "quantifier": "all depths, packed bytes, destinations, strides, previous register contents; all GEMM sizes, orders, offsets, pipelines, block sizes, thread counts and interleavings", "why_tests_cant": "Needs a MIPS processor with MSA; the 16-bit sums of the int8 kernel overflow only for particular pairs of bytes.", "anchors": ["internal/kernel_msa.h: MSA_Kernel12x8Depth2, MSA_GEMM_Int8Operands_LhsNonzero", "internal/pack_msa.h: PackingRegisterBlock::Pack"]}
{"id": "C67", "title": "The ARM64 transform kernels compute their formula on every element, in one thread or several", "statement": "Executed instruction by instruction, Requantize, Quantize, Dequantize, MinMax and BiasAdd with kernel size 16 store, for every positive number of elements (and rows), exactly one result per element, at its place: the binary32 formula, rounded to nearest even (Requantize) or truncated (Quantize, BiasAdd) and saturated, NaN giving 0. They read nothing but the elements and do not depend on previous register contents. The multi-threaded transform makes at most as many tasks as threads, and the stores of its tasks in any order leave the memory the single thread leaves. Refuted theorems give the cases that differ from the test's formulas and the counts that never end.", "quantifier": "all counts, rows, elements (all floats with NaN and infinities, all int32, all bytes), parameters, previous register contents, thread counts and orders of the stores", "why_tests_cant": "Needs an ARM64 processor; the leftovers give 80 different kernels, and the test runs one number of elements with one set of parameters for each.", "anchors": ["meta/transform_kernels_arm_64.h", "meta/single_thread_transform.h", "meta/multi_thread_transform.h", "meta/transform_kernels.h", "meta/test_transform_correctness.cc"]}
{"id": "C68", "title": "The 32-bit ARM transform kernels compute their formula on every element, in one thread or several", "statement": "Executed instruction by instruction, Requantize, Quantize, Dequantize, MinMax and BiasAdd of transform_kernels_arm_32.h store, for every positive number of elements (and rows), exactly one result per element, at its place: the binary32 formula with numbers below 2^-126 taken as zero, truncated and saturated, NaN giving 0; Requantize without output_range_offset. They read nothing but the elements and do not depend on previous register contents, and the multi-threaded transform leaves the memory the single thread leaves. Requantize does not give the same bytes as on ARM64.", "quantifier": "all counts, rows, elements (all floats with subnormals, NaN and infinities, all int32, all bytes), parameters, previous register contents, thread counts and orders of the stores", "why_tests_cant": "Needs a 32-bit ARM processor; 80 different kernels, of which the test runs five with one set of parameters each; results on the two processors are never compared.", "anchors": ["meta/transform_kernels_arm_32.h", "meta/single_thread_transform.h", "meta/multi_thread_transform.h", "meta/transform_kernels.h"]}
{"id": "C69", "title": "The block sizes are computed without int overflow", "statement": "For rows up to 2^29, columns up to 2^28, cache sizes up to 2^29 bytes, kernels of at most 64x64, and a depth up to 2^29 with kCols*(depth+register size)+L2 bytes and threads*(depth+register size+4*(cols+kCols)) below 2^31, no int operation in block_params.h overflows and the result is the one of unbounded arithmetic. Beyond these bounds the product l2_depth*l2_cols overflows, and the divisor for the rows can wrap around to 0.", "quantifier": "all sizes within the bounds, kernel formats, thread counts, cache sizes, and all L2 factors of at most 1", "why_tests_cant": "The overflowing sizes need operands of gigabytes; tests use small sizes, and wrap-around would usually only change the speed.", "anchors": ["internal/block_params.h: FindL2BlockSizes, FindL1BlockSizes, Init", "internal/common.h: RoundUp, CeilQuotient"]}
{"id": "C70", "title": "The scratch buffers of a GEMM are separate and large enough, from the size of the problem alone", "statement": "With the buffer sizes computed in int as in the code, for rows, columns and depth within stated bounds the reservations of the single-threaded driver, of the multi-threaded caller and of each task succeed, Commit succeeds, and every buffer lies at its own place inside the storage; the buffers are those the GEMM works in, element for element, and positions in them are computed without int overflow. With an L2 factor below 1 only single rows of cells times the depth or the columns must stay below 2^31 minus the L2 size; with a factor of exactly 1 (x86) the whole left operand and the whole result of one thread must. Beyond that bound, a left operand of 50000 x 50000 with the x86-64 defaults overflows int, and with wrap-around the storage has 0 bytes.", "quantifier": "all sizes within the bounds, kernel formats, thread counts, cache sizes, L2 factors of at most 1, and all earlier histories of the allocator", "why_tests_cant": "The failing case needs operands of gigabytes; tests stay within a few thousand rows.", "anchors": ["internal/pack.h: PackedSideBlock", "internal/unpack.h: PackedResult", "public/map.h: MatrixMap::data", "internal/allocator.h: Reserve, Commit", "internal/block_params.h: FindL2BlockSizes"]}
