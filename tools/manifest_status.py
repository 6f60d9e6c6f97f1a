STATUS = {
 'C20': ('proved', 'int16 and int32, all inputs.'),
 'C21': ('proved', 'int16 and int32, all inputs, exponents 0..w-1. int16 exponents 16..31, which the asserts accept, are refuted.'),
 'C22': ('proved', 'All exponents except 31 on int32, which is undefined behaviour (refuted theorem).'),
 'C23': ('proved', 'Scalar path; the equality with the round-up halving add of NEON/SSE is refuted on negative odd sums.'),
 'C24': ('proved', 'int8 and int16 saturating add, and the 16-bit-only saturating add.'),
 'C25': ('proved', 'Scalar masks and select, all inputs.'),
 'C26': ('proved', 'Stated in rational numbers.'),
 'C16': ('proved', 'Sizes are unbounded integers in the model (C69 is about int overflow); the float factor is an oracle that may return anything defined.'),
 'C17': ('proved', 'Generic packing path of pack.h, uint8 inputs, uint8 or int8 kernels.'),
 'C18': ('proved', 'All three cell orders.'),
 'C40': ('proved', 'On the 32-bit/64-bit domain; two refuted theorems mark where the helpers fail.'),
 'C01': ('proved', 'Generic (portable) packing, output and unpacking code; any kernel meeting the kernel contract, which is proved for the reference kernel; wrap-around and trapping arithmetic. Sizes and addresses are unbounded integers in the model.'),
 'C02': ('proved', 'Operands live in memories of their own that the call cannot write; the result memory changes only at entries of the result view.'),
 'C03': ('proved', 'Reads of operands, offset and pipeline vectors, and scratch buffers of exactly the reserved sizes.'),
 'C04': ('proved', 'Trap mode: no overflow under int32_safe (which counts the depth rounded up to the register size). Wrap mode: exact modulo 2^32 by C01. Large offsets refuted.'),
 'C05': ('proved', 'Any two kernels, tunings, thread settings, scratch contents and schedules.'),
 'C06': ('proved', 'Sequentially consistent interleavings of the single stores of the tasks of each phase; how the pool runs the tasks is C11-C13.'),
 'C07': ('proved', 'Needs rows*tasks < 2^31; beyond that the split is refuted.'),
 'C08': ('proved', 'Hardware concurrency is a positive number given by the environment; negative settings and products of 2^47 and more are refuted.'),
 'C09': ('proved', 'All stages and positions.'),
 'C10': ('proved', 'With a refutation of "depth 0 gives the pipeline of the empty sum".'),
 'C19': ('proved', 'Whole call, any schedule.'),
 'C30': ('proved', 'Scalar and per-channel stage; the documented formula is refuted on negative ties.'),
 'C31': ('proved', 'Exponents -31..30, no-overflow conditions on the offset addition and the left shift stated; x = multiplier = INT_MIN excluded.'),
 'C32': ('proved', 'All vector shapes, any tile and position.'),
 'C33': ('proved', 'Any pipeline, tile shape and position, generic register code.'),
 'C34': ('proved', 'Range holds even when the arithmetic wraps; monotonicity needs the product to fit (refuted otherwise).'),
 'C11': ('proved', 'Sequentially consistent interleavings of single shared-memory operations, any spurious wake-ups, any task type. Spinning and sleeping in BlockingCounter::Wait are modelled by the step not being enabled.'),
 'C12': ('proved', 'No deadlock, an explicit bound on the number of steps, termination of every fair schedule; with the GEMM phases as tasks.'),
 'C13': ('proved', 'Any sequence of batches followed by destruction; no assertion or abort reachable; no race on task_ and state_; GEMM on a pool with a history.'),
 'C14': ('proved', 'Requests of at most 2^60 bytes each; beyond that n * sizeof(T) can wrap (refuted theorem). The system allocation is an oracle returning an aligned block or nullptr.'),
 'C15': ('proved', 'Fewer than 2^64 Decommits; after exactly 2^64 a stale handle resolves again (refuted theorem).'),
 'C27': ('proved', '16 and 32 bits, every number of integer bits for which ConstantPOT<-2> exists (w-3), both overflow modes.'),
 'C28': ('proved', 'tanh up to w-4 integer bits, logistic up to w-3. The minimum is refuted (negation overflows), and so is sign preservation of 16-bit tanh.'),
 'C29': ('proved', 'With an accuracy bound of 14 (28) units in the last place; (1-x)/(1+x) >= 0 is refuted at x = One.'),
 'C35': ('proved', 'Without the Meta fast path; result buffer distinct from the input buffers.'),
 'C36': ('proved', 'Depth at least 1 and scratch size within int32; both limits have a refuted theorem. Float is binary32 (SpecFloat).'),
 'C37': ('proved', 'Any number of threads; also no deadlock and termination. The mutex is modelled as taken and released atomically.'),
 'C38': ('proved', 'All sizes and thread counts; the int overflow of m*n*k in the size test is refuted. Includes MultiThreadGemm for both executors in every interleaving.'),
 'C39': ('proved', 'Under the stated contiguity of single rows/columns, which is shown to be exactly what is missing from the test (two refuted theorems); also refuted near 2^31 (rounding constant wraps) and for shift 0.'),
 'C47': ('proved', 'ARM64 instances, described by one definition per family of generated assembly. Sizes within fast_sizes; result buffer distinct from the inputs.'),
 'C48': ('proved', 'PackRHS and PackLHS always; cache friendly executors when the task count divides the dimension up to 1. The three failing cases are refuted theorems.'),
 'C49': ('proved', 'Lane counts 1..8; the bound 2056 is sharp (refuted at 2057).'),
 'C42': ('proved', 'Exact for floats; the output stage from 2^-32 on. Refuted: shifts above 31, and that the multiplier of matrices with entries in [-1,1] is below one. Floats are SpecFloat binary32/binary64 without excess precision.'),
 'C43': ('proved', 'Ranges from 2^-118 to 2^127 for the error bound. Refuted: tiny ranges (NaN converted to an integer), infinite scale, an error of at most exactly half a scale.'),
 'C50': ('proved', 'Ranges from 2^-118 to 2^127, product of scales from 2^-126, depth below 2^31/65025, multiplier below one and shift at most 31.'),
 'C44': ('proved', 'Sequentially consistent interleavings. 31 nested labels abort, and Update on an outer object changes the innermost label (refuted theorems).'),
 'C45': ('proved', 'Fewer than 2^64 samples; std::sort is any sorting permutation. The printed percentage is not modelled, the weights are.'),
 'C51': ('proved', 'Any interleaving; the report under the documented rule that one thread starts and finishes profiling.'),
 'C52': ('proved', 'With ThreadExitCallback run before DeleteThreadInfo; the other order is a refuted theorem, as are the two remaining data races.'),
 'C46': ('proved', 'Intrinsics modelled after their documentation. Refuted: All on SSE, the minimum squared on 32-bit SSE, left shifts that overflow, half sums of negative odd sums, 16-bit NEON division with exponent 16.'),
 'C53': ('proved', 'Instructions modelled after their documentation; general registers unbounded. Refuted for packed data that is not padded.'),
 'C54': ('proved', 'Same model as C53.'),
 'C55': ('proved', 'Same model as C53. The refuted theorem is about a block with nothing behind it; in a GEMM the sums are behind it.'),
 'C41': ('proved', 'The kernels in kernel_neon.h, executed instruction by instruction, and a whole GEMM on them. The restriction is shown necessary by refuted theorems.'),
 'C56': ('proved', 'Instructions modelled after their documentation; general registers unbounded.'),
 'C57': ('proved', 'Same model as C56; all six kernels that use uint8 inputs; the 12-bit one for products below 4096.'),
 'C58': ('proved', 'Same model as C56. The local array is 48 words (192 bytes) of the kernel.'),
 'C60': ('proved', 'SSE4, AVX2, NEON and MSA code, uint8 inputs and (NEON) int8 inputs. NEON and MSA for the register size 16 they are built with; the refuted theorem shows that the NEON code does not work for 32.'),
 'C59': ('proved', 'Signed lhs ranges are C64. The failing ranges are refuted theorems, and shown to be the only ones.'),
 'C61': ('proved', 'SSE, NEON and MSA; registers modelled after the documentation of the intrinsics. The two kinds of overflow where tiles differ are refuted theorems. AVX2 builds use the scalar code.'),
 'C62': ('proved', 'Depends on the axioms of Coq.Reals. The bounds for logistic and tanh are not the smallest: exhaustive evaluation outside the proof suggests about 153 and 307 units with 32 bits, 7 and 12 with 16.'),
 'C63': ('proved', 'The positive part covers the two exp functions with 32 bits; the failing tolerances are refuted theorems. Nothing is claimed about the tolerances of tanh, of logistic with 32 bits, and of exp on negative values with 16 bits. Depends on the axioms of Coq.Reals.'),
 'C64': ('proved', 'Instructions modelled after their documentation. The other storage orders do not compile, and signed ranges whose maxima multiply to less than 4096 have no kernel (refuted theorems).'),
 'C65': ('proved', 'Intrinsics modelled after their documentation. Refuted: Any and All on AVX, the minimum squared on 32-bit AVX, selection by non-masks on 32-bit AVX, left shifts that overflow, 16-bit shifts and divisions by 2^16 on WebAssembly and MSA.'),
 'C66': ('proved', 'Instructions modelled after their documentation; general registers unbounded. The restriction of the int8 kernel is shown necessary by a refuted theorem. The output code of these GEMM theorems is the vectorised one, in any of the three variants of its stores.'),
 'C67': ('proved', 'ARM64 only. Instructions modelled after their documentation, floats by SpecFloat of the standard library; the refuted theorems give the cases in which the code differs from the formulas of its test.'),
 'C68': ('proved', 'Instructions modelled after their documentation, with the flushing to zero of 32-bit ARM vectors; floats by SpecFloat of the standard library. The refuted theorem shows that Requantize differs between the two processors.'),
 'C69': ('proved', 'The factor enters through the same oracle as in C16, at most 1. Both bounds are shown necessary by refuted theorems.'),
 'C70': ('proved', 'Takes the conditions on the sizes in C14 from the size of the problem. The allocation is assumed to succeed up to 2^63 bytes. The refuted theorem takes signed overflow as wrap-around.'),
}
