(* MetaModel.v: model of the Meta GEMM (meta/, used by eight_bit_int_gemm.cc when
   GEMMLOWP_USE_META_FASTPATH is defined): sizes of packed streams, packing,
   multiplication kernels, the two executors, their cache friendly versions, the
   dispatch on leftovers, task preparation, MultiThreadGemm and the entry points.
   Simplifications: operands, result and scratch are separate memories of bytes,
   addresses and byte counts are unbounded integers except where [norm] appears;
   pointers advanced by a constant in a loop are written as products; the
   generated assembly (streams_arm_64.h, quantized_mul_kernels_arm_64.h) is
   described by one definition per family with the lane counts as arguments;
   prefetches are left out.  A is the type of a result entry. *)
From Coq Require Import SpecFloat.
From Verif Require Import Base PackModel OutputModel EightBitModel.

(* base.h 26-33; C++ division truncates *)
Definition AlignTo (align value : Z) : Z := Z.quot (value + align - 1) align * align.

(* streams.h 31-37: RowMajorWithSum *)
Record stream := mk_stream { st_count : Z; st_stride : Z; st_mult : Z; st_add : Z }.
(* streams.h 201-203 and 205-212, with InType = uint8 *)
Definition UnpackedStride (lanes : Z) (s : stream) : Z := lanes * st_stride s.
Definition PackedStride (lanes pack_size : Z) (s : stream) : Z :=
  32 + AlignTo 32 (lanes * AlignTo pack_size (st_count s)).
(* streams.h 87-91 *)
Definition StreamUtil_Scratch (s : stream) (lanes pack_size : Z) : Z :=
  32 + AlignTo 32 (lanes * AlignTo pack_size (st_count s)).

(* little-endian 32-bit stores and loads in a memory of bytes *)
Definition byte_of (v i : Z) : Z := (v / 2 ^ (8 * i)) mod 256.
Definition wr32 (m : mem) (a v : Z) : option mem :=
  for_step 0 4 1 (fun i m => wr m (a + i) (byte_of v i)) m.
Definition rd32 (m : mem) (a : Z) : option Z :=
  let* b0 := rd m a in let* b1 := rd m (a + 1) in let* b2 := rd m (a + 2) in let* b3 := rd m (a + 3) in
  Some (wrapS 32 (b0 + 256 * b1 + 65536 * b2 + 16777216 * b3)).

(* ------------------------------------------------------------------ *)
(* streams_arm_64.h: Stream<uint8_t, lanes, 8, leftovers, RowMajorWithSum>::Pack
   (e.g. 27-65: 1 lane, 444-487: 2 lanes, 4569-4654: 8 lanes; 2183-2273: 5 lanes
   with a leftover).  Per lane there are eight 16-bit accumulators (uaddw). *)
Definition lanes_acc := Z -> Z -> Z.
(* ld1 of [cnt] bytes of one lane into a cleared register, uaddw, st1 of 8 bytes *)
Definition pack_lane (input : mem) (cnt src dst l : Z) (s : mem * lanes_acc) : option (mem * lanes_acc) :=
  for_step 0 8 1 (fun j '(sc, acc) =>
    let* x := if j <? cnt then rd input (src + j) else Some 0 in
    let* sc' := wr sc (dst + j) x in
    Some (sc', fun l' j' => if (l' =? l) && (j' =? j) then wrapU 16 (acc l' j' + x) else acc l' j')) s.
(* "Load Aggregate Store: lanes x cnt" *)
Definition pack_block (input : mem) (lanes stride cnt src dst : Z) (s : mem * lanes_acc) : option (mem * lanes_acc) :=
  for_step 0 lanes 1 (fun l => pack_lane input cnt (src + l * stride) (dst + 8 * l) l) s.
(* "Aggregator Reduction" of lane l: uaddlp, addp, mul, add.  The words of
   absent lanes hold unused values, here 0. *)
Definition lane_sum (lanes : Z) (s : stream) (acc : lanes_acc) (l : Z) : Z :=
  if l <? lanes then wrapS 32 (wrapS 32 (sumZ (acc l) 0 8) * st_mult s + st_add s) else 0.
(* The loop "subs count, 8 ... bne 1b" ends only if count - leftovers is a
   multiple of 8, and it is entered before the first test when there are no
   leftovers.  No instance exists for more than 8 lanes (streams.h 185-190 exits);
   0 lanes do nothing. *)
Definition StreamPack (lanes leftovers : Z) (s : stream) (input : mem) (src dst : Z) (sc : mem) : option mem :=
  if lanes =? 0 then Some sc
  else
    check ((1 <=? lanes) && (lanes <=? 8) && (0 <=? leftovers) && (leftovers <? 8));
    check ((1 <=? st_count s) && (leftovers <=? st_count s) && ((st_count s - leftovers) mod 8 =? 0));
    let blocks := (st_count s - leftovers) / 8 in
    let* (sc, acc) := for_step 0 blocks 1
      (fun b => pack_block input lanes (st_stride s) 8 (src + 8 * b) (dst + 8 * lanes * b)) (sc, fun _ _ => 0) in
    let* (sc, acc) :=
      if leftovers =? 0 then Some (sc, acc)
      else pack_block input lanes (st_stride s) leftovers (src + 8 * blocks) (dst + 8 * lanes * blocks) (sc, acc) in
    let words := dst + 8 * lanes * (blocks + (if leftovers =? 0 then 0 else 1)) in
    for_step 0 (if lanes <=? 4 then 4 else 8) 1 (fun l sc => wr32 sc (words + 4 * l) (lane_sum lanes s acc l)) sc.

(* ------------------------------------------------------------------ *)
(* quantized_mul_kernels_arm_64.h: MulKernel<..., m, n, 8>::Multiply (e.g. 27-97:
   1x1, 1040-1148: 2x4).  The instances: 1x1..1x8, 2x1..2x4, 3x1..3x3. *)
Definition kernel_exists (m n : Z) : bool :=
  (1 <=? n) && ((m =? 1) && (n <=? 8) || (m =? 2) && (n <=? 4) || (m =? 3) && (n <=? 3)).
(* "umull, uadalp" loop of one accumulator and its final addp's, modulo 2^32;
   "subs count, 8 ... bgt 1b" runs at least once *)
Definition kernel_blocks (count : Z) : Z := Z.max 1 ((count + 7) / 8).
Definition kernel_dot (sc : mem) (m n count lhs rhs i j : Z) : option Z :=
  for_step 0 (kernel_blocks count) 1 (fun b acc =>
    for_step 0 8 1 (fun d acc =>
      let* x := rd sc (lhs + 8 * (m * b + i) + d) in
      let* y := rd sc (rhs + 8 * (n * b + j) + d) in
      Some (wrapS 32 (acc + x * y))) acc) 0.
(* fin: what the kernel does to the int32 sum; esz: sizeof(OutType).  The stores
   are returned in the order of rows, then columns. *)
Definition Multiply {A} (m n count : Z) (fin : Z -> A) (esz ostride : Z) (sc : mem) (lhs rhs result : Z)
  : option (list (Z * A)) :=
  if (m =? 0) || (n =? 0) then Some []
  else
    check (kernel_exists m n);
    let lwords := lhs + 8 * m * kernel_blocks count in
    let rwords := rhs + 8 * n * kernel_blocks count in
    for_step 0 m 1 (fun i log =>
      for_step 0 n 1 (fun j log =>
        let* a := kernel_dot sc m n count lhs rhs i j in
        let* ls := rd32 sc (lwords + 4 * i) in
        let* rs := rd32 sc (rwords + 4 * j) in
        Some (log ++ [(result + i * ostride + j * esz, fin (wrapS 32 (a + ls + rs)))])) log) [].

(* ------------------------------------------------------------------ *)
(* base.h 45-74: GemmParams; the operands carry the memory they point into.
   p_count is fused_kernel.kernel.count *)
Record source := mk_source { s_mem : mem; s_base : Z }.
Definition advance (s : source) (n : Z) : source := mk_source (s_mem s) (s_base s + n).
Record gemm_params (A : Type) := mk_params {
  p_m : Z; p_n : Z; p_k : Z; p_lhs : source; p_rhs : source; p_result : Z; p_scratch : Z;
  p_left : stream; p_right : stream; p_fin : Z -> A; p_count : Z; p_esz : Z; p_ostride : Z }.
Arguments mk_params {A}. Arguments p_m {A}. Arguments p_n {A}. Arguments p_k {A}. Arguments p_lhs {A}.
Arguments p_rhs {A}. Arguments p_result {A}. Arguments p_scratch {A}. Arguments p_left {A}. Arguments p_right {A}.
Arguments p_fin {A}. Arguments p_count {A}. Arguments p_esz {A}. Arguments p_ostride {A}.
(* scratch memory and stores so far *)
Definition state (A : Type) : Type := (mem * list (Z * A))%type.
(* ExecuteDispatch3D<P, m, n, k, m_leftovers, n_leftovers, k_leftovers> *)
Definition executor (A : Type) : Type := Z -> Z -> Z -> Z -> Z -> Z -> gemm_params A -> state A -> option (state A).

(* single_thread_gemm.h 30-42 *)
Definition PackRHS_EstimateScratchSize {A} (p : gemm_params A) (kernel_m kernel_n kernel_k : Z) : Z :=
  let lhs_scratch := StreamUtil_Scratch (p_left p) kernel_m kernel_k in
  let rhs_chunks := Z.quot (p_n p + kernel_n - 1) kernel_n in
  let rhs_scratch := rhs_chunks * StreamUtil_Scratch (p_right p) kernel_n kernel_k in
  AlignTo 65536 (lhs_scratch + rhs_scratch).
(* 160-180 and 192-212: a strip of mm rows: pack it, multiply it by every packed
   chunk of the right operand *)
Definition rhs_strip {A} (p : gemm_params A) (n k n_leftovers k_leftovers packed_rhs mm : Z) (src : source) (res : Z)
    (st : state A) : option (state A) :=
  let packed_lhs := p_scratch p in
  let rhs_chunks := Z.quot (p_n p) n in
  let packed_rhs_chunk_size := PackedStride n k (p_right p) in
  let result_chunk_size := p_esz p * n in
  let* sc := StreamPack mm k_leftovers (p_left p) (s_mem src) (s_base src) packed_lhs (fst st) in
  let* log := for_step 0 rhs_chunks 1 (fun j log =>
    let* t := Multiply mm n (p_count p) (p_fin p) (p_esz p) (p_ostride p) sc packed_lhs
                (packed_rhs + j * packed_rhs_chunk_size) (res + j * result_chunk_size) in
    Some (log ++ t)) (snd st) in
  let* t := Multiply mm n_leftovers (p_count p) (p_fin p) (p_esz p) (p_ostride p) sc packed_lhs
              (packed_rhs + rhs_chunks * packed_rhs_chunk_size) (res + rhs_chunks * result_chunk_size) in
  Some (sc, log ++ t).
(* 46-214: GemmExecutorPackRHS *)
Definition PackRHS {A} : executor A := fun m n k m_leftovers n_leftovers k_leftovers p st =>
  let lhs_chunks := Z.quot (p_m p) m in
  let rhs_chunks := Z.quot (p_n p) n in
  let packed_rhs := p_scratch p + PackedStride m k (p_left p) in
  let packed_rhs_chunk_size := PackedStride n k (p_right p) in
  let rhs_chunk_size := UnpackedStride n (p_right p) in
  let* sc := for_step 0 rhs_chunks 1 (fun i sc =>
    StreamPack n k_leftovers (p_right p) (s_mem (p_rhs p)) (s_base (p_rhs p) + i * rhs_chunk_size)
      (packed_rhs + i * packed_rhs_chunk_size) sc) (fst st) in
  let* sc := StreamPack n_leftovers k_leftovers (p_right p) (s_mem (p_rhs p)) (s_base (p_rhs p) + rhs_chunks * rhs_chunk_size)
      (packed_rhs + rhs_chunks * packed_rhs_chunk_size) sc in
  let lhs_chunk_size := UnpackedStride m (p_left p) in
  let result_strip_size := m * p_ostride p in
  let* st := for_step 0 lhs_chunks 1 (fun i =>
    rhs_strip p n k n_leftovers k_leftovers packed_rhs m (advance (p_lhs p) (i * lhs_chunk_size))
      (p_result p + i * result_strip_size)) (sc, snd st) in
  if 0 <? m_leftovers
  then rhs_strip p n k n_leftovers k_leftovers packed_rhs m_leftovers (advance (p_lhs p) (lhs_chunks * lhs_chunk_size))
         (p_result p + lhs_chunks * result_strip_size) st
  else Some st.

(* 219-231 *)
Definition PackLHS_EstimateScratchSize {A} (p : gemm_params A) (kernel_m kernel_n kernel_k : Z) : Z :=
  let lhs_chunks := Z.quot (p_m p + kernel_m - 1) kernel_m in
  let lhs_scratch := lhs_chunks * StreamUtil_Scratch (p_left p) kernel_m kernel_k in
  let rhs_scratch := StreamUtil_Scratch (p_right p) kernel_n kernel_k in
  AlignTo 65536 (lhs_scratch + rhs_scratch).
(* 347-367 and 379-399: a strip of nn columns *)
Definition lhs_strip {A} (p : gemm_params A) (m k m_leftovers k_leftovers packed_lhs nn : Z) (src : source) (res : Z)
    (st : state A) : option (state A) :=
  let packed_rhs := p_scratch p in
  let lhs_chunks := Z.quot (p_m p) m in
  let packed_lhs_chunk_size := PackedStride m k (p_left p) in
  let result_chunk_size := m * p_ostride p in
  let* sc := StreamPack nn k_leftovers (p_right p) (s_mem src) (s_base src) packed_rhs (fst st) in
  let* log := for_step 0 lhs_chunks 1 (fun j log =>
    let* t := Multiply m nn (p_count p) (p_fin p) (p_esz p) (p_ostride p) sc
                (packed_lhs + j * packed_lhs_chunk_size) packed_rhs (res + j * result_chunk_size) in
    Some (log ++ t)) (snd st) in
  let* t := Multiply m_leftovers nn (p_count p) (p_fin p) (p_esz p) (p_ostride p) sc
              (packed_lhs + lhs_chunks * packed_lhs_chunk_size) packed_rhs (res + lhs_chunks * result_chunk_size) in
  Some (sc, log ++ t).
(* 233-401: GemmExecutorPackLHS *)
Definition PackLHS {A} : executor A := fun m n k m_leftovers n_leftovers k_leftovers p st =>
  let lhs_chunks := Z.quot (p_m p) m in
  let rhs_chunks := Z.quot (p_n p) n in
  let packed_lhs := p_scratch p + PackedStride n k (p_right p) in
  let packed_lhs_chunk_size := PackedStride m k (p_left p) in
  let lhs_chunk_size := UnpackedStride m (p_left p) in
  let* sc := for_step 0 lhs_chunks 1 (fun i sc =>
    StreamPack m k_leftovers (p_left p) (s_mem (p_lhs p)) (s_base (p_lhs p) + i * lhs_chunk_size)
      (packed_lhs + i * packed_lhs_chunk_size) sc) (fst st) in
  let* sc := StreamPack m_leftovers k_leftovers (p_left p) (s_mem (p_lhs p)) (s_base (p_lhs p) + lhs_chunks * lhs_chunk_size)
      (packed_lhs + lhs_chunks * packed_lhs_chunk_size) sc in
  let rhs_chunk_size := UnpackedStride n (p_right p) in
  let result_strip_size := p_esz p * n in
  let* st := for_step 0 rhs_chunks 1 (fun i =>
    lhs_strip p m k m_leftovers k_leftovers packed_lhs n (advance (p_rhs p) (i * rhs_chunk_size))
      (p_result p + i * result_strip_size)) (sc, snd st) in
  if 0 <? n_leftovers
  then lhs_strip p m k m_leftovers k_leftovers packed_lhs n_leftovers (advance (p_rhs p) (rhs_chunks * rhs_chunk_size))
         (p_result p + rhs_chunks * result_strip_size) st
  else Some st.

(* 537-672: the dispatch stages try the leftover counts downwards and exit(1)
   when none fits *)
Fixpoint dispatch_leftovers {B} (variable : nat) (left : Z) (run : Z -> option B) : option B :=
  if left =? Z.of_nat variable then run (Z.of_nat variable)
  else match variable with O => None | S v => dispatch_leftovers v left run end.
(* 676-683 *)
Definition MetaGemm {A} (e : executor A) (kernel_m kernel_n kernel_k : Z) (p : gemm_params A) (st : state A)
  : option (state A) :=
  dispatch_leftovers (Z.to_nat (kernel_m - 1)) (Z.rem (p_m p) kernel_m) (fun ml =>
  dispatch_leftovers (Z.to_nat (kernel_n - 1)) (Z.rem (p_n p) kernel_n) (fun nl =>
  dispatch_leftovers (Z.to_nat (kernel_k - 1)) (Z.rem (p_k p) kernel_k) (fun kl =>
    e kernel_m kernel_n kernel_k ml nl kl p st))).

(* 406-414 *)
Definition CalculateCacheFriendlyTasksCount (cache_size constant_memory per_chunk_memory total_dim chunk_dim : Z) : option Z :=
  check (constant_memory + per_chunk_memory <? cache_size);
  let available_cache := cache_size - constant_memory in
  let available_chunks := Z.quot available_cache per_chunk_memory in
  let chunks_count := Z.quot (total_dim + chunk_dim - 1) chunk_dim in
  Some (Z.quot (chunks_count + available_chunks - 1) available_chunks).
(* 416-433, with streams.h 57-62 and 80-85 *)
Definition UpdateCacheFriendlyTask {A} (m_offset m n_offset n : Z) (p : gemm_params A) : gemm_params A :=
  mk_params m n (p_k p) (advance (p_lhs p) (m_offset * st_stride (p_left p)))
    (advance (p_rhs p) (n_offset * st_stride (p_right p)))
    (p_result p + (m_offset * p_ostride p + n_offset * p_esz p)) (p_scratch p) (p_left p) (p_right p) (p_fin p)
    (p_count p) (p_esz p) (p_ostride p).
(* 446-483: GemmExecutorPackRHSCacheFriendly; the chunks (start, length) of n *)
Definition split_dim (dim tasks : Z) : list (Z * Z) :=
  let chunk := Z.quot dim tasks in
  let last := (tasks - 1) * chunk in
  map (fun i => (i * chunk, chunk)) (zrange (tasks - 1)) ++ [(last, dim - last)].
Fixpoint run_list {S T} (f : T -> S -> option S) (l : list T) (s : S) : option S :=
  match l with [] => Some s | x :: t => let* s' := f x s in run_list f t s' end.
Definition PackRHSCacheFriendly {A} (cache_size : Z) : executor A := fun m n k ml nl kl p st =>
  let lhs_scratch := PackedStride m k (p_left p) in
  let rhs_scratch := PackedStride n k (p_right p) in
  let* tasks := CalculateCacheFriendlyTasksCount cache_size lhs_scratch rhs_scratch (p_n p) n in
  if tasks =? 1 then PackRHS m n k ml nl kl p st
  else check (negb (tasks =? 0)); run_list (fun c => MetaGemm PackRHS m n k (UpdateCacheFriendlyTask 0 (p_m p) (fst c) (snd c) p))
         (split_dim (p_n p) tasks) st.
(* 495-532: GemmExecutorPackLHSCacheFriendly *)
Definition PackLHSCacheFriendly {A} (cache_size : Z) : executor A := fun m n k ml nl kl p st =>
  let lhs_scratch := PackedStride m k (p_left p) in
  let rhs_scratch := PackedStride n k (p_right p) in
  let* tasks := CalculateCacheFriendlyTasksCount cache_size rhs_scratch lhs_scratch (p_m p) m in
  if tasks =? 1 then PackLHS m n k ml nl kl p st
  else check (negb (tasks =? 0)); run_list (fun c => MetaGemm PackLHS m n k (UpdateCacheFriendlyTask (fst c) (snd c) 0 (p_n p) p))
         (split_dim (p_m p) tasks) st.

(* ------------------------------------------------------------------ *)
(* Task preparation *)
Record task_rect := mk_rect { tr_m_offset : Z; tr_m : Z; tr_n_offset : Z; tr_n : Z }.
(* legacy_multi_thread_common.h 74-81; hw: sysconf(_SC_NPROCESSORS_CONF) *)
Definition ResolveMaxThreads (hw max_threads : Z) : Z := if max_threads =? 0 then hw else max_threads.
(* the number of tasks, legacy_multi_thread_common.h 85-91 and
   multi_thread_gemm.h 61-69 *)
Definition real_tasks (mode : ovf) (max_tasks m n k : Z) : option Z :=
  let* mn := norm mode 32 (m * n) in
  let* mnk := norm mode 32 (mn * k) in
  let max_tasks_by_size := Z.quot mnk 16000 in
  let max_tasks_dimension := Z.max (Z.quot m 4) (Z.quot n 4) in
  Some (Z.max 1 (Z.min max_tasks (Z.min max_tasks_by_size max_tasks_dimension))).
(* legacy_multi_thread_common.h 93-113 *)
Definition split_tasks (tasks m n : Z) : list task_rect :=
  if tasks =? 1 then [mk_rect 0 m 0 n]
  else if Z.quot m 4 >? Z.quot n 4
  then map (fun c => mk_rect (fst c) (snd c) 0 n) (split_dim m tasks)
  else map (fun c => mk_rect 0 m (fst c) (snd c)) (split_dim n tasks).
(* legacy_multi_thread_common.h 83-113 *)
Definition PrepareTasks (mode : ovf) (max_tasks m n k : Z) : option (list task_rect) :=
  let* tasks := real_tasks mode max_tasks m n k in Some (split_tasks tasks m n).
(* multi_thread_gemm.h 28-102: the params of each task; estimate is
   Executor::EstimateScratchSize for the kernel sizes.  None: UB; Some None: the
   function returns false. *)
Definition PrepareGemmTask {A} (p : gemm_params A) (scratch : Z) (r : task_rect) : gemm_params A :=
  let q := UpdateCacheFriendlyTask (tr_m_offset r) (tr_m r) (tr_n_offset r) (tr_n r) p in
  mk_params (p_m q) (p_n q) (p_k q) (p_lhs q) (p_rhs q) (p_result q) scratch (p_left q) (p_right q) (p_fin q)
    (p_count q) (p_esz q) (p_ostride q).
Fixpoint prepare_all {A} (estimate : gemm_params A -> Z) (p : gemm_params A) (scratch : Z) (l : list task_rect)
  : list (gemm_params A) :=
  match l with
  | [] => []
  | r :: t => let q := PrepareGemmTask p scratch r in q :: prepare_all estimate p (scratch + estimate q) t
  end.
Definition PrepareGemmTasks {A} (mode : ovf) (estimate : gemm_params A -> Z) (hw max_num_threads : Z)
    (p : gemm_params A) : option (option (list (gemm_params A))) :=
  let* tasks := real_tasks mode (ResolveMaxThreads hw max_num_threads) (p_m p) (p_n p) (p_k p) in
  if tasks =? 1 then Some None
  else Some (Some (prepare_all estimate p (p_scratch p) (split_tasks tasks (p_m p) (p_n p)))).

(* Execution of a list of tasks.  A task may use the bytes of its own part of
   the scratch buffer only: leaving it is an overrun or a race with another
   task, and the task is then undefined. *)
Definition part (sc : mem) (start len : Z) : mem :=
  fun a => if (start <=? a) && (a <? start + len) then sc a else None.
(* the stores of a computation: phases of concurrent tasks *)
Definition phases (A : Type) : Type := list (list (list (Z * A))).
Definition alone {A} (r : option (state A)) : option (phases A) := let* s := r in Some [[snd s]].
(* multi_thread_gemm.h 104-114: GemmTaskRunner::Run of each task *)
Fixpoint run_gemm_tasks {A} (e : executor A) (estimate : gemm_params A -> Z) (kernel_m kernel_n kernel_k : Z) (sc : mem)
    (l : list (gemm_params A)) : option (list (list (Z * A))) :=
  match l with
  | [] => Some []
  | q :: t =>
      let* st := MetaGemm e kernel_m kernel_n kernel_k q (part sc (p_scratch q) (estimate q), []) in
      let* rest := run_gemm_tasks e estimate kernel_m kernel_n kernel_k sc t in
      Some (snd st :: rest)
  end.
(* 118-139 *)
Definition MultiThreadGemm {A} (mode : ovf) (e : executor A) (estimate : gemm_params A -> Z) (kernel_m kernel_n kernel_k hw max_num_threads : Z)
    (p : gemm_params A) (sc : mem) : option (phases A) :=
  let* o := PrepareGemmTasks mode estimate hw max_num_threads p in
  match o with
  | None => alone (MetaGemm e kernel_m kernel_n kernel_k p (sc, []))
  | Some l => let* logs := run_gemm_tasks e estimate kernel_m kernel_n kernel_k sc l in Some [logs]
  end.

(* ------------------------------------------------------------------ *)
(* The legacy entry points.  What the three kernels do with the int32 sum: *)
(* quantized_mul_kernels_arm_64.h 83-90: mul, add, sshl, sqxtn, sqxtun *)
Definition q8_fin (mult shift a : Z) : Z :=
  let x := wrapS 32 (wrapS 32 (a * mult) + 2 ^ (shift - 1)) / 2 ^ shift in
  Z.max 0 (Z.min 255 (Z.max (- 32768) (Z.min 32767 x))).
(* kd_add: result_offset; kd_fin: None when 1 << (shift - 1) is undefined;
   kd_threshold, kd_big: the kernel sizes of the vector case *)
Record kind (A : Type) := mk_kind {
  kd_esz : Z; kd_add : Z; kd_fin : option (Z -> A); kd_threshold : Z; kd_big : Z * Z }.
Arguments mk_kind {A}. Arguments kd_esz {A}. Arguments kd_add {A}. Arguments kd_fin {A}. Arguments kd_threshold {A}. Arguments kd_big {A}.
(* legacy_single_thread_gemm.h 29-120, 122-205, 207-290 *)
Definition q8_kind (sum_offset mult shift : Z) : kind Z :=
  mk_kind 1 sum_offset (if (1 <=? shift) && (shift <=? 31) then Some (q8_fin mult shift) else None) 1536 (2, 4).
Definition i32_kind : kind Z := mk_kind 4 0 (Some (fun a => a)) 1664 (1, 6).
Definition f_kind (scale : float) : kind float := mk_kind 4 0 (Some (fun a => fmul (float_of_int32 a) scale)) 1664 (1, 6).

(* the GemmParams built by the six functions; the sums are C++ int arithmetic *)
Definition legacy_params {A} (mode : ovf) (kd : kind A) (scratch : Z) (lhs rhs : source) (m n k lhs_offset rhs_offset result ostride : Z)
  : option (gemm_params A) :=
  let* kl := norm mode 32 (k * lhs_offset) in
  let* klr := norm mode 32 (kl * rhs_offset) in
  let* add := norm mode 32 (kd_add kd + klr) in
  let* fin := kd_fin kd in
  Some (mk_params m n k lhs rhs result scratch (mk_stream k k rhs_offset add) (mk_stream k k lhs_offset 0) fin k (kd_esz kd) ostride).
(* gemm_q8_strided, gemm_i32_strided, gemm_f_strided *)
Definition gemm_strided {A} (mode : ovf) (kd : kind A) (lhs_offset rhs_offset scratch : Z) (lhs rhs : source) (m n k result result_stride : Z)
    (st : state A) : option (state A) :=
  let* p := legacy_params mode kd scratch lhs rhs m n k lhs_offset rhs_offset result (kd_esz kd * result_stride) in
  MetaGemm PackRHS 2 4 8 p st.
(* gemv_q8, gemv_i32, gemv_f; the output stride is n or 0 and never used *)
Definition gemv {A} (mode : ovf) (kd : kind A) (lhs_offset rhs_offset scratch : Z) (lhs rhs : source) (n k result : Z)
    (st : state A) : option (state A) :=
  let* p := legacy_params mode kd scratch lhs rhs 1 n k lhs_offset rhs_offset result 0 in
  if k <? kd_threshold kd then MetaGemm PackLHS 1 8 8 p st
  else MetaGemm PackLHS (fst (kd_big kd)) (snd (kd_big kd)) 8 p st.

(* legacy_multi_thread_gemm.h 31-57: the column chunks (start, length).  k * 4
   and optimal_n * k are small when the first test succeeds. *)
Definition cache_chunks (mode : ovf) (n k : Z) : option (list (Z * Z)) :=
  let* nk := norm mode 32 (n * k) in
  if nk >? 262144 then
    let* k4 := norm mode 32 (k * 4) in
    check (negb (k4 =? 0));
    let optimal_n := Z.max 1 (4 * Z.quot 262144 k4) in
    let chunks_count_less_one := Z.quot n optimal_n - 1 in
    Some (map (fun i => (i * optimal_n, optimal_n)) (zrange chunks_count_less_one)
          ++ [(chunks_count_less_one * optimal_n, n - chunks_count_less_one * optimal_n)])
  else Some [(0, n)].
Definition CacheFriendlyMatrixMatrix {A} (mode : ovf) (kd : kind A) (lhs_offset rhs_offset scratch : Z) (lhs rhs : source) (m n k result result_stride : Z)
    (st : state A) : option (state A) :=
  let* chunks := cache_chunks mode n k in
  run_list (fun c => gemm_strided mode kd lhs_offset rhs_offset scratch lhs (advance rhs (fst c * k)) m (snd c) k
                       (result + kd_esz kd * fst c) result_stride) chunks st.

(* the operation of a GEMM (legacy_multi_thread_gemm.h 59-148) and of a
   matrix-vector product (legacy_multi_thread_gemv.h 31-89): scratch per thread
   and ExecuteMatrixMatrix *)
Record operation (A : Type) := mk_operation {
  op_esz : Z; op_scratch : Z;
  op_execute : Z -> source -> source -> Z -> Z -> Z -> Z -> Z -> state A -> option (state A) }.
Arguments mk_operation {A}. Arguments op_esz {A}. Arguments op_scratch {A}. Arguments op_execute {A}.
Definition gemm_operation {A} (mode : ovf) (kd : kind A) (lhs_offset rhs_offset : Z) : operation A :=
  mk_operation (kd_esz kd) (4 * 262144) (CacheFriendlyMatrixMatrix mode kd lhs_offset rhs_offset).
Definition gemv_operation {A} (mode : ovf) (kd : kind A) (lhs_offset rhs_offset : Z) : operation A :=
  mk_operation (kd_esz kd) (128 * 1024) (fun scratch lhs rhs m n k result result_stride =>
    gemv mode kd lhs_offset rhs_offset scratch lhs rhs n k result).
(* legacy_multi_thread_common.h 64-71: MetaTask::Run *)
Definition MetaTask_Run {A} (op : operation A) (scratch : Z) (lhs rhs : source) (r : task_rect) (k result result_stride : Z)
    (st : state A) : option (state A) :=
  op_execute op scratch (advance lhs (tr_m_offset r * k)) (advance rhs (tr_n_offset r * k)) (tr_m r) (tr_n r) k
    (result + op_esz op * (tr_m_offset r * result_stride + tr_n_offset r)) result_stride st.
Fixpoint run_tasks {A} (op : operation A) (sc : mem) (scratch : Z) (lhs rhs : source) (k result result_stride : Z)
    (l : list task_rect) : option (list (list (Z * A))) :=
  match l with
  | [] => Some []
  | r :: t =>
      let* st := MetaTask_Run op scratch lhs rhs r k result result_stride (part sc scratch (op_scratch op), []) in
      let* rest := run_tasks op sc (scratch + op_scratch op) lhs rhs k result result_stride t in
      Some (snd st :: rest)
  end.
(* legacy_multi_thread_common.h 115-145; the buffer starts at 0 *)
Definition MultiThreadedMatrixMatrix {A} (mode : ovf) (op : operation A) (hw max_threads : Z) (sc : mem) (lhs rhs : source)
    (m n k result result_stride : Z) : option (phases A) :=
  let* rects := PrepareTasks mode (ResolveMaxThreads hw max_threads) m n k in
  match rects with
  | [_] => alone (op_execute op 0 lhs rhs m n k result result_stride (sc, []))
  | _ => let* logs := run_tasks op sc 0 lhs rhs k result result_stride rects in Some [logs]
  end.
(* multi_thread_gemv_q8, _f, _i32: legacy_multi_thread_gemv.h 99-115, 123-137, 145-159 *)
Definition multi_thread_gemv {A} (mode : ovf) (kd : kind A) (hw max_threads : Z) (sc : mem) (lhs rhs : source)
    (n k lhs_offset rhs_offset result : Z) : option (phases A) :=
  let max_threads := ResolveMaxThreads hw max_threads in
  let op := gemv_operation mode kd lhs_offset rhs_offset in
  if max_threads =? 1 then alone (op_execute op 0 lhs rhs 1 n k result n (sc, []))
  else MultiThreadedMatrixMatrix mode op hw max_threads sc lhs rhs 1 n k result n.
(* multi_thread_gemm_q8, _f, _i32: legacy_multi_thread_gemm.h 158-185, 193-218, 226-251 *)
Definition multi_thread_gemm {A} (mode : ovf) (kd : kind A) (hw max_threads : Z) (sc : mem) (lhs rhs : source)
    (m n k lhs_offset rhs_offset result : Z) : option (phases A) :=
  if m =? 1 then multi_thread_gemv mode kd hw max_threads sc lhs rhs n k lhs_offset rhs_offset result
  else if n =? 1 then multi_thread_gemv mode kd hw max_threads sc rhs lhs m k rhs_offset lhs_offset result
  else
    let max_threads := ResolveMaxThreads hw max_threads in
    let op := gemm_operation mode kd lhs_offset rhs_offset in
    if max_threads =? 1 then alone (op_execute op 0 lhs rhs m n k result n (sc, []))
    else MultiThreadedMatrixMatrix mode op hw max_threads sc lhs rhs m n k result n.
(* gemm_q8_scratch, gemm_f_scratch, gemm_i32_scratch: 152-156, 187-191, 220-224 *)
Definition gemm_scratch (mode : ovf) (hw max_threads : Z) : option Z :=
  norm mode 32 (ResolveMaxThreads hw max_threads * (4 * 262144)).

(* ------------------------------------------------------------------ *)
(* eight_bit_int_gemm.cc 189-246 *)
Definition IsRowMajorOrVector (transpose : bool) (stride rows cols : Z) : bool :=
  if transpose && (stride =? cols) then true else if rows =? 1 then true else false.
Definition IsColumnMajorOrVector (transpose : bool) (stride rows cols : Z) : bool :=
  if negb transpose && (stride =? rows) then true else if cols =? 1 then true else false.
Definition CanHandleMetaFastpath (x : args) : bool :=
  if negb (match x_bits x with A8B8 => true | _ => false end) || (x_k x <? 8) || (x_k x >? 2048) then false
  else if negb (IsRowMajorOrVector (x_ta x) (x_lda x) (x_m x) (x_k x)) then false
  else if negb (IsColumnMajorOrVector (x_tb x) (x_ldb x) (x_k x) (x_n x)) then false
  else if IsRowMajorOrVector (x_tc x) (x_ldc x) (x_m x) (x_n x) then true
  else if IsColumnMajorOrVector (x_tc x) (x_ldc x) (x_m x) (x_n x) then true
  else false.
(* The global scratch buffer as bytes (.cc 143-171).  addr: where a new buffer
   lies, junk: its contents. *)
Record byte_scratch := mk_bs { bs_size : Z; bs_mem : mem }.
Definition AssureBytes (mode : ovf) (required_size addr : Z) (junk : Z -> Z) (s : byte_scratch) : option byte_scratch :=
  if bs_size s >=? required_size then Some s
  else
    let* len := norm mode 32 (required_size + 32) in
    check (0 <=? len);
    let skip := Z.rem (32 - addr mod 32) 32 in
    check ((addr + skip) mod 32 =? 0);
    Some (mk_bs required_size (fun i => if (0 <=? i) && (skip + i <? len) then Some (wrapU 8 (junk i)) else None)).
(* 249-271 and 275-293; mnt is context->max_num_threads().  The addresses of the
   stores are divided by the size of an entry. *)
Definition entries {A} (esz : Z) (ph : phases A) : phases A :=
  map (map (map (fun w => (fst w / esz, snd w)))) ph.
Definition MetaGemmFastpath {A} (mode : ovf) (kd : kind A) (hw mnt addr : Z) (junk : Z -> Z) (s : byte_scratch)
    (x : args) (a b : mem) : option (byte_scratch * phases A) :=
  let lhs := mk_source a (snd (x_a x)) in
  let rhs := mk_source b (snd (x_b x)) in
  let result := kd_esz kd * snd (x_c x) in
  let* size := gemm_scratch mode hw mnt in
  let* s := AssureBytes mode size addr junk s in
  let* ph :=
    if IsRowMajorOrVector (x_tc x) (x_ldc x) (x_m x) (x_n x)
    then multi_thread_gemm mode kd hw mnt (bs_mem s) lhs rhs (x_m x) (x_n x) (x_k x) (x_aoff x) (x_boff x) result
    else multi_thread_gemm mode kd hw mnt (bs_mem s) rhs lhs (x_n x) (x_m x) (x_k x) (x_boff x) (x_aoff x) result in
  Some (s, entries (kd_esz kd) ph).
