(* GemmModel.v: model of internal/single_thread_gemm.h, the GEMM part of
   internal/multi_thread_gemm.h, internal/dispatch_gemm_shape.h and the entry
   points of public/gemmlowp.h.
   The result matrix is only ever written, so a GEMM is modelled by the stores
   it performs.  Simplifications: every scratch buffer reserved from an
   allocator is a separate memory whose contents on entry are arbitrary
   (AllocatorModel.v justifies this); profiling labels are left out; the tasks
   of one WorkersPool::Execute call are run one by one and their stores kept
   apart, to be interleaved arbitrarily (PoolModel.v covers how the pool runs
   them). *)
From Verif Require Import Base CommonModel PackModel FixedPointModel ComputeModel OutputModel UnpackModel OutputSimdModel.

(* What the scratch buffers happen to contain: packed left and right operand
   bytes and sums, packed result, and the two stack buffers of pack.h 235 and
   unpack.h 181 *)
Record scratch := mk_scratch {
  sc_lhs_data : Z -> Z; sc_lhs_sums : Z -> Z; sc_rhs_data : Z -> Z; sc_rhs_sums : Z -> Z;
  sc_result : Z -> Z; sc_pack_buf : Z -> Z; sc_unpack_buf : Z -> Z }.

(* pack.h 53-59: the PackedSideBlock constructor; bytes are arbitrary bytes *)
Definition new_packed (p : side_params) (jdata jsums : Z -> Z) : packed :=
  mk_packed (local_buf (sp_l2_width p * sp_l2_depth p) (fun a => jdata a mod 256))
            (local_buf (sp_l2_width p) jsums) 0 jdata.
(* unpack.h 32-36 *)
Definition new_result (bp : block_params) (j : Z -> Z) : mem := local_buf (bp_l2_rows bp * bp_l2_cols bp) j.

(* one operand: the memory it lives in and the view of it *)
Record operand := mk_operand { op_mem : mem; op_map : matrix_map }.

Record gemm_state := mk_state { g_lhs : packed; g_rhs : packed; g_res : mem; g_log : list (Z * Z) }.

(* UnpackResult of unpack.h 129-276 as the build instantiates it.  The scalar
   type of the result is the one the last output stage makes (output.h 43-428:
   the OutputType of each evaluator). *)
Fixpoint pipe_out (p : list stage) : sty :=
  match p with
  | [] => I32
  | [SSatU8] | [STruncU8] => U8
  | [SSatI8] => I8
  | [SSatI16] => I16
  | _ :: t => pipe_out t
  end.
Definition Unpack (o : option simd) (m : ovf) (k : kernel_fmt) (junk : Z -> Z) (dst : matrix_map) (blk : bounds)
    (src : mem) (src_map : matrix_map) (depth : Z) (lhs_sums rhs_sums : mem) (lhs_offset rhs_offset : vec)
    (p : list stage) : option (list (Z * Z)) :=
  match o with
  | None => UnpackResult m k junk dst blk src src_map depth lhs_sums rhs_sums lhs_offset rhs_offset p
  | Some T => UnpackResultV T m k (pipe_out p) junk dst blk src src_map depth lhs_sums rhs_sums lhs_offset rhs_offset p
  end.

(* single_thread_gemm.h 67-153 *)
Definition SingleThreadGemm (m : ovf) (K : kernel) (t : tuning) (sc : scratch)
    (lhs rhs : operand) (result : matrix_map) (lhs_offset rhs_offset : vec) (p : list stage)
  : option (list (Z * Z)) :=
  let k := k_fmt K in
  check (mm_cols (op_map lhs) =? mm_rows (op_map rhs));
  let rows := mm_rows result in
  let cols := mm_cols result in
  let depth := mm_cols (op_map lhs) in
  check (0 <? rows); check (0 <? cols); check (0 <? depth); check (cols <=? rows);
  let* bp := BlockParams_Init k rows cols depth 1 t in
  let spL := GetSideBlockParams Lhs bp in
  let spR := GetSideBlockParams Rhs bp in
  let pack_lhs M b := PackLhs (k_pack K) m (kf_lhs k) (kf_reg k) (sc_pack_buf sc) spL (op_mem lhs) M b in
  let pack_rhs M b := PackRhs (k_pack K) m (kf_rhs k) (kf_reg k) (sc_pack_buf sc) spR (op_mem rhs) M b in
  let pack_rhs_once := cols <=? bp_l2_cols bp in
  let rhs0 := new_packed spR (sc_rhs_data sc) (sc_rhs_sums sc) in
  let* rhs1 := if pack_rhs_once then pack_rhs (op_map rhs) rhs0 else Some rhs0 in
  let* st :=
    for_step 0 rows (bp_l2_rows bp) (fun r st =>
      let rs := Z.min (bp_l2_rows bp) (rows - r) in
      let* lblk := mm_block (op_map lhs) r 0 rs depth in
      let* plhs := pack_lhs lblk (g_lhs st) in
      for_step 0 cols (bp_l2_cols bp) (fun c st =>
        let cs := Z.min (bp_l2_cols bp) (cols - c) in
        let* prhs :=
          if pack_rhs_once then Some (g_rhs st)
          else let* rblk := mm_block (op_map rhs) 0 c depth cs in pack_rhs rblk (g_rhs st) in
        let* res := Compute K bp (g_lhs st) prhs depth (g_res st) in
        let* lo := vec_block lhs_offset r rs in
        let* ro := vec_block rhs_offset c cs in
        let* l := Unpack (k_out K) m k (sc_unpack_buf sc) result (mk_bounds r c rs cs) res
                    (packed_result_map bp) depth (pk_sums (g_lhs st)) (pk_sums prhs) lo ro p in
        Some (mk_state (g_lhs st) prhs res (g_log st ++ l)))
        (mk_state plhs (g_rhs st) (g_res st) (g_log st)))
      (mk_state (new_packed spL (sc_lhs_data sc) (sc_lhs_sums sc)) rhs1 (new_result bp (sc_result sc)) []) in
  Some (g_log st).

(* multi_thread_gemm.h 493-524: GemmWithPackedRhsTask::Run.  The task holds its
   own copy of the PackedRhs object (528), so its position is not shared. *)
Definition TaskRun (m : ovf) (K : kernel) (bp : block_params) (sc : scratch) (lhs : operand)
    (packed_rhs : packed) (result : matrix_map) (blk : bounds) (lhs_offset rhs_offset : vec)
    (p : list stage) : option (list (Z * Z)) :=
  let k := k_fmt K in
  let rows := bb_rows blk in
  let cols := bb_cols blk in
  let depth := mm_cols (op_map lhs) in
  let spL := GetSideBlockParams Lhs bp in
  let* st :=
    for_step 0 cols (bp_l2_cols bp) (fun c st =>
      let cs := Z.min (bp_l2_cols bp) (cols - c) in
      for_step 0 rows (bp_l2_rows bp) (fun r st =>
        let rs := Z.min (bp_l2_rows bp) (rows - r) in
        let* lblk := mm_block (op_map lhs) r 0 rs depth in
        let* plhs := PackLhs (k_pack K) m (kf_lhs k) (kf_reg k) (sc_pack_buf sc) spL (op_mem lhs) lblk (g_lhs st) in
        let* res := Compute K bp plhs packed_rhs depth (g_res st) in
        let curr := mk_bounds (bb_row blk + r) (bb_col blk + c) rs cs in
        let* lo := vec_block lhs_offset (bb_row curr) rs in
        let* ro := vec_block rhs_offset (bb_col curr) cs in
        let* l := Unpack (k_out K) m k (sc_unpack_buf sc) result curr res (packed_result_map bp) depth
                    (pk_sums plhs) (pk_sums packed_rhs) lo ro p in
        Some (mk_state plhs packed_rhs res (g_log st ++ l))) st)
      (mk_state (new_packed spL (sc_lhs_data sc) (sc_lhs_sums sc)) packed_rhs
                (new_result bp (sc_result sc)) []) in
  Some (g_log st).

(* platform.h 80-99; hw is what the operating system reports *)
Definition GetHardwareConcurrency (hw max_threads : Z) : Z := if max_threads =? 0 then hw else max_threads.

(* multi_thread_gemm.h 579-625.  cubic_size is a uint64; its quotient is
   converted to int. *)
Definition HowManyThreads (m : ovf) (kernel_rows hw max_num_threads rows cols depth : Z) : option Z :=
  if max_num_threads =? 1 then Some 1 else
  let max_count := GetHardwareConcurrency hw max_num_threads in
  let MinRowsPerThread := if kernel_rows >? 16 then kernel_rows else 16 in
  let* n := norm m 32 (rows + MinRowsPerThread) in
  let* n := norm m 32 (n - 1) in
  let thread_count := Z.min max_count (Z.quot n MinRowsPerThread) in
  let thread_count :=
    if thread_count >? 1 then
      let cubic_size := wrapU 64 (wrapU 64 (wrapU 64 rows * wrapU 64 cols) * wrapU 64 depth) in
      let tc := Z.min thread_count (wrapS 32 (cubic_size / (64 * 1024))) in
      if tc <? 1 then 1 else tc
    else thread_count in
  check (0 <? thread_count); check (thread_count <=? max_count);
  Some thread_count.

(* multi_thread_gemm.h 690-697: the row ranges (first row, number of rows) of
   the tasks *)
Definition row_ranges (m : ovf) (kernel_rows rows task_count : Z) : option (list (Z * Z)) :=
  let* (_, l) :=
    for_step 0 task_count 1 (fun n st =>
      let '(next_start_row, l) := st in
      let start_row := next_start_row in
      let* prod := norm m 32 (rows * (n + 1)) in
      let next_start_row := Z.min rows (RoundUp32 kernel_rows (Z.quot prod task_count)) in
      let block_rows := next_start_row - start_row in
      Some (next_start_row, l ++ [(start_row, block_rows)])) (0, []) in
  Some l.

Fixpoint mapiM {A B} (f : Z -> A -> option B) (i : Z) (l : list A) : option (list B) :=
  match l with
  | [] => Some []
  | a :: t => let* b := f i a in let* u := mapiM f (i + 1) t in Some (b :: u)
  end.

(* multi_thread_gemm.h 632-717.  The result has one element per
   WorkersPool::Execute call; that element has one list of stores per task.
   scs c n is the scratch memory of task n when column block c is done.  The
   master packs the right-hand side with its own scratch memory sc. *)
Definition MultiThreadGemm (m : ovf) (K : kernel) (t : tuning) (hw max_num_threads : Z)
    (sc : scratch) (scs : Z -> Z -> scratch)
    (lhs rhs : operand) (result : matrix_map) (lhs_offset rhs_offset : vec) (p : list stage)
  : option (list (list (list (Z * Z)))) :=
  let k := k_fmt K in
  check (mm_cols (op_map lhs) =? mm_rows (op_map rhs));
  let rows := mm_rows result in
  let cols := mm_cols result in
  let depth := mm_cols (op_map lhs) in
  check (0 <? rows); check (0 <? cols); check (0 <? depth); check (cols <=? rows);
  let* thread_count := HowManyThreads m (kRows k) hw max_num_threads rows cols depth in
  if thread_count =? 1 then
    let* l := SingleThreadGemm m K t sc lhs rhs result lhs_offset rhs_offset p in Some [[l]]
  else
    check (1 <? thread_count);
    let task_count := thread_count in
    let* bp := BlockParams_Init k rows cols depth task_count t in
    let spR := GetSideBlockParams Rhs bp in
    let* (_, phases) :=
      for_step 0 cols (bp_l2_cols bp) (fun c st =>
        let '(packed_rhs, phases) := st in
        let cs := Z.min (bp_l2_cols bp) (cols - c) in
        let* rblk := mm_block (op_map rhs) 0 c depth cs in
        let* packed_rhs := PackRhs (k_pack K) m (kf_rhs k) (kf_reg k) (sc_pack_buf sc) spR (op_mem rhs) rblk packed_rhs in
        let* ranges := row_ranges m (kRows k) rows task_count in
        let* logs :=
          mapiM (fun n range =>
            let '(start_row, block_rows) := range in
            let* lhs_block := mm_block (op_map lhs) start_row 0 block_rows depth in
            TaskRun m K bp (scs c n) (mk_operand (op_mem lhs) lhs_block) packed_rhs result
              (mk_bounds start_row c block_rows cs) lhs_offset rhs_offset p) 0 ranges in
        Some (packed_rhs, phases ++ [logs]))
        (new_packed spR (sc_rhs_data sc) (sc_rhs_sums sc), []) in
    Some phases.

(* dispatch_gemm_shape.h 41-72: Transpose of maps and vectors.  VectorDup has
   no specialisation and is returned unchanged (27-31). *)
Definition tr_order (o : map_order) : map_order := match o with RowMajor => ColMajor | ColMajor => RowMajor end.
Definition tr_shape (s : vshape) : vshape := match s with VRow => VCol | VCol => VRow end.
Definition tr_map (M : matrix_map) : matrix_map :=
  mk_map (mm_base M) (mm_cols M) (mm_rows M) (mm_stride M) (tr_order (mm_order M)).
Definition tr_operand (o : operand) : operand := mk_operand (op_mem o) (tr_map (op_map o)).
Definition tr_vec (v : vec) : vec :=
  match v with VMap sh u => VMap (tr_shape sh) u | VDup sh x n => VDup sh x n end.
(* 74-117: stages; all others are returned unchanged *)
Definition tr_stage (s : stage) : stage :=
  match s with
  | SQuantizeDownPC sh off mult shift => SQuantizeDownPC (tr_shape sh) off mult shift
  | SScaleExpPC sh mult ex off => SScaleExpPC (tr_shape sh) mult ex off
  | SBias v => SBias (tr_vec v)
  | s => s
  end.

(* dispatch_gemm_shape.h 165-201; the single recursive call is the one with
   rows >= cols *)
Definition DispatchGemmShape (m : ovf) (K : kernel) (t : tuning) (hw max_num_threads : Z)
    (sc : scratch) (scs : Z -> Z -> scratch)
    (lhs rhs : operand) (result : matrix_map) (lhs_offset rhs_offset : vec) (p : list stage)
  : option (list (list (list (Z * Z)))) :=
  let body lhs rhs result lhs_offset rhs_offset p continue :=
    check (mm_cols (op_map lhs) =? mm_rows (op_map rhs));
    let rows := mm_rows result in
    let cols := mm_cols result in
    let depth := mm_cols (op_map lhs) in
    if (rows =? 0) || (cols =? 0) || (depth =? 0) then Some []
    else if rows <? cols then
      continue (tr_operand rhs) (tr_operand lhs) (tr_map result) (tr_vec rhs_offset) (tr_vec lhs_offset)
        (map tr_stage p)
    else MultiThreadGemm m K t hw max_num_threads sc scs lhs rhs result lhs_offset rhs_offset p in
  body lhs rhs result lhs_offset rhs_offset p (fun lhs rhs result lo ro p =>
    body lhs rhs result lo ro p (fun _ _ _ _ _ _ => None)).

(* gemmlowp.h 30-42: GemmWithOutputPipelinePC is DispatchGemmShape.
   44-66: GemmWithOutputPipeline *)
Definition GemmWithOutputPipeline (m : ovf) (K : kernel) (t : tuning) (hw max_num_threads : Z)
    (sc : scratch) (scs : Z -> Z -> scratch) (lhs rhs : operand) (result : matrix_map)
    (lhs_offset rhs_offset : Z) (p : list stage) : option (list (list (list (Z * Z)))) :=
  DispatchGemmShape m K t hw max_num_threads sc scs lhs rhs result
    (VDup VCol lhs_offset (mm_rows (op_map lhs))) (VDup VRow rhs_offset (mm_cols (op_map rhs))) p.

(* output_stages.h 207-221: MakeStandardOutputPipeline *)
Definition MakeStandardOutputPipeline (result_offset result_mult_int result_shift : Z) : list stage :=
  [SQuantizeDown result_offset result_mult_int result_shift; SSatU8].
(* gemmlowp.h 68-83 *)
Definition Gemm (m : ovf) (K : kernel) (t : tuning) (hw max_num_threads : Z)
    (sc : scratch) (scs : Z -> Z -> scratch) (lhs rhs : operand) (result : matrix_map)
    (lhs_offset rhs_offset result_offset result_mult_int result_shift : Z)
  : option (list (list (list (Z * Z)))) :=
  GemmWithOutputPipeline m K t hw max_num_threads sc scs lhs rhs result lhs_offset rhs_offset
    (MakeStandardOutputPipeline result_offset result_mult_int result_shift).
