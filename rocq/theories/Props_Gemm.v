(* Props_Gemm.v: property theorems C01-C10 and C19, about the model of a whole
   GEMM call (GemmModel.v).  [DispatchGemmShape] is the call
   GemmWithOutputPipelinePC(context, lhs, rhs, &result, lhs_offset, rhs_offset,
   pipeline); [None] would be an out-of-bounds access, a failed assertion or, in
   mode Trap, a signed overflow.  A successful call yields phases of concurrent
   tasks; [execution phases trace] says that trace is one of the orders in which
   their stores can reach memory.  K is any kernel meeting KernelSpec.v, sc and
   scs are the arbitrary contents of scratch memory, t the cache settings.
   The vocabulary is defined in GemmSpec.v, KernelSpec.v, OutputSpec.v and
   GemmContract.v. *)
From Verif Require Import Base CommonModel PackModel GemmSpec FixedPointModel FixedPointSpec ComputeModel KernelSpec KernelProofs
  OutputModel OutputSpec UnpackModel GemmModel GemmContract GemmProofs3 GemmProofs4 GemmProofs5 GemmExample GemmRefuted.

(* C01: the result is the pipeline applied to the offset product *)
Theorem C01_gemm_offset_product :
  forall m K t hw max_num_threads sc scs lhs rhs result lo ro p L R LO RO out before,
  gemm_config_ok m K t hw max_num_threads result ->
  gemm_problem m K (op_mem lhs) (op_map lhs) (op_mem rhs) (op_map rhs) result lo ro p L R LO RO out ->
  valid_view before result ->
  exists phases, DispatchGemmShape m K t hw max_num_threads sc scs lhs rhs result lo ro p = Some phases /\
    (exists trace, execution phases trace) /\
    forall trace, execution phases trace ->
      exists after, perform trace before = Some after /\ stored before after result out.
Proof. exact gemm_correct. Qed.
Print Assumptions C01_gemm_offset_product.

(* the uint8 entry point Gemm() with the standard pipeline, spelled out *)
Theorem C01_Gemm_standard :
  forall m K t hw max_num_threads sc scs lhs rhs result L R lo ro off mult shift before,
  let depth := mm_cols (op_map lhs) in
  let P r c := offset_product L R (fun _ => lo) (fun _ => ro) depth r c in
  gemm_config_ok m K t hw max_num_threads result ->
  mm_rows (op_map lhs) = mm_rows result -> mm_cols (op_map rhs) = mm_cols result -> depth = mm_rows (op_map rhs) ->
  0 < mm_rows result -> 0 < mm_cols result -> 0 < depth ->
  in_min (kf_rhs (k_fmt K)) = in_min (kf_lhs (k_fmt K)) ->
  holds_lhs (kf_lhs (k_fmt K)) (op_mem lhs) (op_map lhs) L -> holds_rhs (kf_rhs (k_fmt K)) (op_mem rhs) (op_map rhs) R ->
  valid_view before result -> 0 <= shift <= 31 -> fits 32 lo -> fits 32 ro -> fits 32 off -> fits 32 mult ->
  (m = Wrap \/
   (int32_safe (in_min (kf_lhs (k_fmt K))) (kf_reg (k_fmt K)) depth (mm_rows result) (mm_cols result) (fun _ => lo) (fun _ => ro) /\
    forall r c, 0 <= r < mm_rows result -> 0 <= c < mm_cols result -> fits 32 (P r c + off) /\ fits 32 ((P r c + off) * mult))) ->
  exists phases, Gemm m K t hw max_num_threads sc scs lhs rhs result lo ro off mult shift = Some phases /\
    (exists trace, execution phases trace) /\
    forall trace, execution phases trace ->
      exists after, perform trace before = Some after /\
        stored before after result (fun r c => clampZ 0 255 (rnd_away (wrapS 32 ((P r c + off) * mult)) (2 ^ shift))).
Proof. exact Gemm_standard. Qed.
Print Assumptions C01_Gemm_standard.

(* the portable kernel meets the kernel contract, for every uint8 format *)
Theorem C01_reference_kernel : forall m k, kernel_fmt_ok k ->
  sf_signed (kf_lhs k) = false -> sf_signed (kf_rhs k) = false -> kernel_correct m (ReferenceKernel m k).
Proof. exact reference_kernel_correct. Qed.
Print Assumptions C01_reference_kernel.

(* hypotheses met, and what the model computes: 2x3 by 3x4 *)
Example C01_example :
  gemm_config_ok Trap (ReferenceKernel Trap ex_fmt1) (ex_tune 64 64) 4 3 ex_result /\
  gemm_problem Trap (ReferenceKernel Trap ex_fmt1) (op_mem ex_lhs) (op_map ex_lhs) (op_mem ex_rhs) (op_map ex_rhs) ex_result ex_lo ex_ro ex_pipe
    exL exR exLO exRO ex_out /\
  valid_view ex_before ex_result /\
  DispatchGemmShape Trap (ReferenceKernel Trap ex_fmt1) (ex_tune 64 64) 4 3 (ex_scratch 1) (fun c n => ex_scratch (c + n))
    ex_lhs ex_rhs ex_result ex_lo ex_ro ex_pipe
  = Some [[[(10, 81); (13, 255); (16, 0); (19, 0); (11, 40); (14, 255); (17, 137); (20, 0)]]].
Proof.
  split; [apply ex_config_ok; [auto|lia|lia|lia]|]. split; [apply ex_problem; [cbn; lia|split; discriminate]|]. split; [exact ex_valid|].
  vm_compute. reflexivity.
Qed.
(* and an instance that is split between two tasks *)
Example C01_example_threads :
  gemm_config_ok Trap (ReferenceKernel Trap ex_fmt1) (ex_tune 6400 64000) 4 0 big_result /\
  gemm_problem Trap (ReferenceKernel Trap ex_fmt1) (op_mem big_lhs) (op_map big_lhs) (op_mem big_rhs) (op_map big_rhs) big_result
    (VDup VCol (-3) 32) (VDup VRow (-2) 1) [SSatU8]
    (fun r d => (r * 4096 + d) mod 7) (fun d c => (d + c * 4096) mod 5) (fun _ => -3) (fun _ => -2) big_out /\
  valid_view (fun a => if (0 <=? a) && (a <? 32) then Some 0 else None) big_result /\
  HowManyThreads Trap 4 4 0 32 1 4096 = Some 2.
Proof. split; [apply big_config_ok|]. split; [apply big_problem|]. split; [exact big_valid|vm_compute; reflexivity]. Qed.

(* C02: a memory cell that changes is an entry of the result view *)
Theorem C02_writes_only_result :
  forall m K t hw max_num_threads sc scs lhs rhs result lo ro p L R LO RO out before,
  gemm_config_ok m K t hw max_num_threads result ->
  gemm_problem m K (op_mem lhs) (op_map lhs) (op_mem rhs) (op_map rhs) result lo ro p L R LO RO out ->
  valid_view before result ->
  exists phases, DispatchGemmShape m K t hw max_num_threads sc scs lhs rhs result lo ro p = Some phases /\
    forall trace, execution phases trace ->
      exists after, perform trace before = Some after /\
        forall a, after a <> before a ->
          exists r c, 0 <= r < mm_rows result /\ 0 <= c < mm_cols result /\ a = entry_addr result r c.
Proof. exact gemm_only_result. Qed.
Print Assumptions C02_writes_only_result.
Example C02_example : gemm_config_ok Wrap (ReferenceKernel Wrap ex_fmt2) (ex_tune 64 64) 4 3 ex_result /\
  valid_view ex_before ex_result /\ ex_before 12 = Some 222 (* a gap: stride 3, two rows *) /\
  (forall r c, 0 <= r < 2 -> 0 <= c < 4 -> 12 <> entry_addr ex_result r c).
Proof.
  split; [apply ex_config_ok; [auto|lia|lia|lia]|]. split; [exact ex_valid|]. split; [reflexivity|].
  intros r c Hr Hc. unfold entry_addr, ex_result. cbn [mm_order mm_base mm_stride]. lia.
Qed.

(* C03: when nothing but the entries of the two operand views, of the offset
   vectors and of the vectors in the pipeline is allocated, the call still
   succeeds (every read outside would make it None; the scratch buffers of the
   model have exactly the reserved sizes), and every store of every task hits
   an entry of the result view. *)
Theorem C03_no_out_of_bounds_access :
  forall m K t hw max_num_threads sc scs lhs rhs result lo ro p L R LO RO out,
  gemm_config_ok m K t hw max_num_threads result ->
  gemm_problem m K (op_mem lhs) (op_map lhs) (op_mem rhs) (op_map rhs) result lo ro p L R LO RO out ->
  only_view (op_mem lhs) (op_map lhs) -> only_view (op_mem rhs) (op_map rhs) ->
  only_vec lo -> only_vec ro -> Forall only_stage p ->
  exists phases, DispatchGemmShape m K t hw max_num_threads sc scs lhs rhs result lo ro p = Some phases /\
    forall phase task a v, In phase phases -> In task phase -> In (a, v) task ->
      exists r c, 0 <= r < mm_rows result /\ 0 <= c < mm_cols result /\ a = entry_addr result r c.
Proof. exact gemm_in_bounds. Qed.
Print Assumptions C03_no_out_of_bounds_access.
Example C03_example :
  gemm_problem Trap (ReferenceKernel Trap ex_fmt2) (op_mem ex_lhs) (op_map ex_lhs) (op_mem ex_rhs) (op_map ex_rhs) ex_result ex_lo ex_ro ex_pipe
    exL exR exLO exRO ex_out /\
  only_view (op_mem ex_lhs) (op_map ex_lhs) /\ only_view (op_mem ex_rhs) (op_map ex_rhs) /\
  only_vec ex_lo /\ only_vec ex_ro /\ Forall only_stage ex_pipe.
Proof. split; [apply ex_problem; [cbn; lia|split; discriminate]|exact ex_only]. Qed.

(* C04: with sizes and offsets in the safe range no 32-bit operation anywhere
   overflows (mode Trap: the call is not None) and the accumulators are the
   exact integer sums. *)
Theorem C04_exact_without_overflow :
  forall K t hw max_num_threads sc scs lhs rhs result lo ro p L R LO RO out before,
  gemm_config_ok Trap K t hw max_num_threads result ->
  gemm_problem Trap K (op_mem lhs) (op_map lhs) (op_mem rhs) (op_map rhs) result lo ro p L R LO RO out ->
  valid_view before result ->
  (forall r c, 0 <= r < mm_rows result -> 0 <= c < mm_cols result ->
     fits 32 (offset_product L R LO RO (mm_cols (op_map lhs)) r c) /\
     pipe_at Trap p r c (offset_product L R LO RO (mm_cols (op_map lhs)) r c) = Some (out r c)) /\
  exists phases, DispatchGemmShape Trap K t hw max_num_threads sc scs lhs rhs result lo ro p = Some phases /\
    forall trace, execution phases trace ->
      exists after, perform trace before = Some after /\ stored before after result out.
Proof. exact gemm_exact. Qed.
Print Assumptions C04_exact_without_overflow.
Example C04_example : int32_safe 0 16 33010 1000 2000 (fun r => - (r mod 256)) (fun c => - (c mod 200)) /\
  gemm_problem Trap (ReferenceKernel Trap ex_fmt1) (op_mem big_lhs) (op_map big_lhs) (op_mem big_rhs) (op_map big_rhs) big_result
    (VDup VCol (-3) 32) (VDup VRow (-2) 1) [SSatU8]
    (fun r d => (r * 4096 + d) mod 7) (fun d c => (d + c * 4096) mod 5) (fun _ => -3) (fun _ => -2) big_out.
Proof.
  split; [|apply big_problem]. exists 255, 255. split; [lia|]. split; [lia|]. split; [lia|].
  split; [intros r _; pose proof (Z.mod_pos_bound r 256 ltac:(lia)); lia|intros c _; pose proof (Z.mod_pos_bound c 200 ltac:(lia)); lia].
Qed.
(* Outside the range the C++ code has undefined behaviour: the same 2x3 by 3x4
   call with larger offsets overflows an int32 *)
Theorem C04_large_offsets_refuted : exists lo ro,
  fits 32 lo /\ fits 32 ro /\
  DispatchGemmShape Trap (ReferenceKernel Trap ex_fmt1) (ex_tune 64 64) 4 3 (ex_scratch 1) (fun c n => ex_scratch (c + n))
    ex_lhs ex_rhs ex_result (VDup VCol lo 2) (VDup VRow ro 4) [SSatU8] = None.
Proof. exact large_offsets_refuted. Qed.
Print Assumptions C04_large_offsets_refuted.

(* C05: two calls that differ in kernel, cache sizes, thread settings, scratch
   contents, schedule and previous result contents agree on every entry, and
   on all of memory if they started from the same memory. *)
Theorem C05_independent_of_tuning_and_history :
  forall m K1 K2 t1 t2 hw1 hw2 mnt1 mnt2 sc1 sc2 scs1 scs2 lhs rhs result lo ro p L R LO RO out before1 before2,
  gemm_config_ok m K1 t1 hw1 mnt1 result -> gemm_config_ok m K2 t2 hw2 mnt2 result ->
  gemm_problem m K1 (op_mem lhs) (op_map lhs) (op_mem rhs) (op_map rhs) result lo ro p L R LO RO out ->
  gemm_problem m K2 (op_mem lhs) (op_map lhs) (op_mem rhs) (op_map rhs) result lo ro p L R LO RO out ->
  valid_view before1 result -> valid_view before2 result ->
  exists phases1 phases2,
    DispatchGemmShape m K1 t1 hw1 mnt1 sc1 scs1 lhs rhs result lo ro p = Some phases1 /\
    DispatchGemmShape m K2 t2 hw2 mnt2 sc2 scs2 lhs rhs result lo ro p = Some phases2 /\
    forall trace1 trace2, execution phases1 trace1 -> execution phases2 trace2 ->
      exists after1 after2, perform trace1 before1 = Some after1 /\ perform trace2 before2 = Some after2 /\
        (forall r c, 0 <= r < mm_rows result -> 0 <= c < mm_cols result ->
           after1 (entry_addr result r c) = after2 (entry_addr result r c)) /\
        ((forall a, before1 a = before2 a) -> forall a, after1 a = after2 a).
Proof. exact gemm_independent. Qed.
Print Assumptions C05_independent_of_tuning_and_history.
Example C05_example :
  gemm_config_ok Trap (ReferenceKernel Trap ex_fmt1) (ex_tune 64 64) 4 1 ex_result /\
  gemm_config_ok Trap (ReferenceKernel Trap ex_fmt2) (ex_tune 1000 100000) 16 0 ex_result /\
  (forall K, 1 <= kf_reg (k_fmt K) <= 32 -> takes_uint8 (k_fmt K) ->
    gemm_problem Trap K (op_mem ex_lhs) (op_map ex_lhs) (op_mem ex_rhs) (op_map ex_rhs) ex_result ex_lo ex_ro ex_pipe
      exL exR exLO exRO ex_out) /\ valid_view ex_before ex_result.
Proof.
  split; [apply ex_config_ok; [auto|lia|lia|lia]|]. split; [apply ex_config_ok; [auto|lia|lia|lia]|].
  split; [apply ex_problem|exact ex_valid].
Qed.

(* C06: whatever the thread settings and the interleaving, memory ends up as
   after the single-threaded call, which performs one list of stores. *)
Theorem C06_multithreaded_equals_single :
  forall m K t hw max_num_threads sc scs sc1 scs1 lhs rhs result lo ro p L R LO RO out before,
  gemm_config_ok m K t hw max_num_threads result ->
  gemm_problem m K (op_mem lhs) (op_map lhs) (op_mem rhs) (op_map rhs) result lo ro p L R LO RO out ->
  valid_view before result ->
  exists log after,
    DispatchGemmShape m K t hw 1 sc1 scs1 lhs rhs result lo ro p = Some [[log]] /\ perform log before = Some after /\
  exists phases, DispatchGemmShape m K t hw max_num_threads sc scs lhs rhs result lo ro p = Some phases /\
    forall trace, execution phases trace ->
      exists after', perform trace before = Some after' /\ forall a, after' a = after a.
Proof. exact gemm_multi_single. Qed.
Print Assumptions C06_multithreaded_equals_single.
Example C06_example : gemm_config_ok Trap (ReferenceKernel Trap ex_fmt1) (ex_tune 6400 64000) 4 0 big_result /\
  HowManyThreads Trap (kRows ex_fmt1) 4 0 (mm_rows big_result) (mm_cols big_result) 4096 = Some 2.
Proof. split; [apply big_config_ok|vm_compute; reflexivity]. Qed.
(* the interleavings of two tasks really are many orders *)
Example C06_interleavings : interleaving [[1; 2]; [3]] [1; 3; 2] /\ interleaving [[1; 2]; [3]] [3; 1; 2] /\
  ~ interleaving [[1; 2]; [3]] [2; 1; 3].
Proof. exact interleavings_example. Qed.

(* C07: the ranges handed to the tasks partition the rows, start at multiples
   of the kernel's row count (or are empty), and are balanced up to one kernel
   height. *)
Theorem C07_row_split : forall m kernel_rows rows task_count,
  0 < kernel_rows -> 0 < rows -> 0 < task_count ->
  rows * task_count <= 2 ^ 31 - 1 -> rows + kernel_rows <= 2 ^ 31 - 1 ->
  exists ranges, row_ranges m kernel_rows rows task_count = Some ranges /\ Z.of_nat (length ranges) = task_count /\
    (forall i s n, nth_error ranges i = Some (s, n) ->
       0 <= s /\ 0 <= n <= rows / task_count + kernel_rows /\ s + n <= rows /\ ((kernel_rows | s) \/ n = 0)) /\
    (forall r, 0 <= r < rows -> exists i s n, nth_error ranges i = Some (s, n) /\ s <= r < s + n /\
       forall i' s' n', nth_error ranges i' = Some (s', n') -> s' <= r < s' + n' -> i' = i).
Proof. exact row_split_full. Qed.
Print Assumptions C07_row_split.
Example C07_example : row_ranges Trap 12 100 3 = Some [(0, 36); (36, 36); (72, 28)] /\
  row_ranges Trap 4 5 3 = Some [(0, 4); (4, 0); (4, 1)].
Proof. split; vm_compute; reflexivity. Qed.

(* no two tasks of a phase ever store to the same cell *)
Theorem C07_tasks_race_free :
  forall m K t hw max_num_threads sc scs lhs rhs result lo ro p L R LO RO out before phases,
  gemm_config_ok m K t hw max_num_threads result ->
  gemm_problem m K (op_mem lhs) (op_map lhs) (op_mem rhs) (op_map rhs) result lo ro p L R LO RO out ->
  valid_view before result ->
  DispatchGemmShape m K t hw max_num_threads sc scs lhs rhs result lo ro p = Some phases ->
  forall phase i j li lj a vi vj, In phase phases -> nth_error phase i = Some li -> nth_error phase j = Some lj -> i <> j ->
    In (a, vi) li -> In (a, vj) lj -> False.
Proof. exact gemm_tasks_disjoint. Qed.
Print Assumptions C07_tasks_race_free.

(* Without the bound rows * task_count < 2^31 the split is wrong: the product
   overflows (undefined), and with wrap-around a task gets negative row
   counts. *)
Theorem C07_large_split_refuted : exists rows task_count,
  0 < rows < 2 ^ 31 /\ 0 < task_count <= 64 /\
  HowManyThreads Trap 4 64 0 rows 1 1 = Some task_count /\
  row_ranges Trap 4 rows task_count = None /\
  exists ranges s n, row_ranges Wrap 4 rows task_count = Some ranges /\ In (s, n) ranges /\ n < 0.
Proof. exact large_split_refuted. Qed.
Print Assumptions C07_large_split_refuted.

(* C08: bounds on the number of threads, and its exact value when the cubic
   size is below 2^47. *)
Theorem C08_thread_count : forall m k hw max_num_threads rows cols depth,
  0 < kRows k -> 0 < rows -> 0 < cols -> 0 < depth -> threads_ok k hw max_num_threads rows ->
  exists tc, HowManyThreads m (kRows k) hw max_num_threads rows cols depth = Some tc /\ 1 <= tc /\
    (max_num_threads = 1 -> tc = 1) /\
    (max_num_threads <> 1 -> tc <= (if max_num_threads =? 0 then hw else max_num_threads)) /\
    (1 < tc -> (tc - 1) * 16 < rows /\ (tc - 1) * kRows k < rows /\ tc * (64 * 1024) <= rows * cols * depth /\
       rows * tc <= 2 ^ 31 - 1 /\ rows + kRows k <= 2 ^ 31 - 1) /\
    (rows * cols * depth < 2 ^ 47 -> max_num_threads <> 1 ->
       tc = Z.max 1 (Z.min (Z.min (if max_num_threads =? 0 then hw else max_num_threads) (CeilQuotient rows (Z.max 16 (kRows k))))
                           (rows * cols * depth / (64 * 1024)))).
Proof. exact HowManyThreads_spec. Qed.
Print Assumptions C08_thread_count.
Example C08_example : threads_ok ex_fmt1 8 0 100 /\ threads_ok ex_fmt1 8 (2 ^ 31 - 1) 1000 /\
  HowManyThreads Trap 4 8 0 100 64 64 = Some 6 /\ HowManyThreads Trap 4 8 1 100 64 64 = Some 1 /\
  HowManyThreads Trap 4 8 3 100 64 64 = Some 3.
Proof. repeat split; try (vm_compute; reflexivity); right; vm_compute; intuition discriminate. Qed.
(* negative settings fail the assertion, and from 2^47 on the quotient is
   truncated to int: the policy falls back to one thread on huge products *)
Theorem C08_negative_setting_refuted : exists max_num_threads, HowManyThreads Trap 4 8 max_num_threads 100 64 64 = None.
Proof. exact negative_threads_refuted. Qed.
Print Assumptions C08_negative_setting_refuted.
Theorem C08_huge_product_refuted : exists rows cols depth,
  0 < rows < 2 ^ 31 /\ 0 < cols < 2 ^ 31 /\ 0 < depth < 2 ^ 31 /\
  HowManyThreads Trap 4 8 0 rows cols depth = Some 1 /\ 8 * (64 * 1024) <= rows * cols * depth.
Proof. exact huge_product_refuted. Qed.
Print Assumptions C08_huge_product_refuted.

(* C09: a call and the call with swapped transposed operands, transposed
   result view, swapped transposed offset vectors and transposed stages leave
   the same memory; whichever of the two has fewer rows than columns goes
   through the transposition in the dispatch. *)
Theorem C09_transposition_transparent :
  forall m K t hw max_num_threads sc scs sc' scs' lhs rhs result lo ro p L R LO RO out before,
  gemm_config_ok m K t hw max_num_threads result ->
  gemm_problem m K (op_mem lhs) (op_map lhs) (op_mem rhs) (op_map rhs) result lo ro p L R LO RO out ->
  valid_view before result ->
  exists phases phases',
    DispatchGemmShape m K t hw max_num_threads sc scs lhs rhs result lo ro p = Some phases /\
    DispatchGemmShape m K t hw max_num_threads sc' scs' (tr_operand rhs) (tr_operand lhs) (tr_map result)
      (tr_vec ro) (tr_vec lo) (map tr_stage p) = Some phases' /\
    forall trace trace', execution phases trace -> execution phases' trace' ->
      exists after after', perform trace before = Some after /\ perform trace' before = Some after' /\
        stored before after result out /\ forall a, after' a = after a.
Proof. exact gemm_transposed. Qed.
Print Assumptions C09_transposition_transparent.
(* transposing a pipeline exchanges the roles of row and column, for every
   stage and every position *)
Theorem C09_transposed_pipeline : forall m p r c x, pipe_at m (map tr_stage p) r c x = pipe_at m p c r x.
Proof. exact tr_pipe_at. Qed.
Print Assumptions C09_transposed_pipeline.
Example C09_example : mm_rows ex_result < mm_cols ex_result /\
  map tr_stage ex_pipe = [SBias (VMap VCol (ex_vec [1000; -2000; 3000; 77])); SQuantizeDown 50 13 10; SSatU8] /\
  pipe_at Trap ex_pipe 1 2 (offset_product exL exR exLO exRO 3 1 2) = Some 137 /\
  pipe_at Trap (map tr_stage ex_pipe) 2 1 (offset_product exL exR exLO exRO 3 1 2) = Some 137.
Proof. split; [cbn; lia|]. repeat split; vm_compute; reflexivity. Qed.

(* C10: with a zero dimension nothing is stored *)
Theorem C10_degenerate_no_op :
  forall m K t hw max_num_threads sc scs lhs rhs result lo ro p before,
  mm_cols (op_map lhs) = mm_rows (op_map rhs) ->
  mm_rows result = 0 \/ mm_cols result = 0 \/ mm_cols (op_map lhs) = 0 ->
  exists phases, DispatchGemmShape m K t hw max_num_threads sc scs lhs rhs result lo ro p = Some phases /\
    (exists trace, execution phases trace) /\
    forall trace, execution phases trace -> perform trace before = Some before.
Proof. exact gemm_degenerate. Qed.
Print Assumptions C10_degenerate_no_op.
Example C10_example :
  DispatchGemmShape Trap (ReferenceKernel Trap ex_fmt1) (ex_tune 64 64) 4 3 (ex_scratch 1) (fun c n => ex_scratch (c + n))
    (mk_operand (fun _ => None) (mk_map 0 5 0 0 RowMajor)) (mk_operand (fun _ => None) (mk_map 0 0 7 0 RowMajor))
    (mk_map 0 5 7 7 RowMajor) (VDup VCol 0 5) (VDup VRow 0 7) [SSatU8] = Some [].
Proof. vm_compute. reflexivity. Qed.
(* so with depth 0 the result is not the pipeline applied to the empty sum *)
Theorem C10_empty_sum_refuted : exists lhs rhs result p before phases trace after,
  mm_rows (op_map lhs) = mm_rows result /\ mm_cols (op_map rhs) = mm_cols result /\
  mm_cols (op_map lhs) = 0 /\ mm_rows (op_map rhs) = 0 /\ valid_view before result /\
  DispatchGemmShape Trap (ReferenceKernel Trap ex_fmt1) (ex_tune 64 64) 4 3 (ex_scratch 1) (fun c n => ex_scratch (c + n))
    lhs rhs result (VDup VCol 0 5) (VDup VRow 0 7) p = Some phases /\
  execution phases trace /\ perform trace before = Some after /\
  exists r c, 0 <= r < mm_rows result /\ 0 <= c < mm_cols result /\
    after (entry_addr result r c) <> pipe_at Trap p r c 0.
Proof. exact empty_sum_refuted. Qed.
Print Assumptions C10_empty_sum_refuted.

(* C19: every entry of the result is stored exactly once, and nothing else is *)
Theorem C19_stored_exactly_once :
  forall m K t hw max_num_threads sc scs lhs rhs result lo ro p L R LO RO out,
  gemm_config_ok m K t hw max_num_threads result ->
  gemm_problem m K (op_mem lhs) (op_map lhs) (op_mem rhs) (op_map rhs) result lo ro p L R LO RO out ->
  exists phases, DispatchGemmShape m K t hw max_num_threads sc scs lhs rhs result lo ro p = Some phases /\
    forall trace, execution phases trace -> stores_once result out trace.
Proof. exact gemm_stores. Qed.
Print Assumptions C19_stored_exactly_once.
Example C19_example : stores_once (mk_map 10 1 2 1 ColMajor) (fun r c => r + 5 * c) [(11, 5); (10, 0)] /\
  ~ stores_once (mk_map 10 1 2 1 ColMajor) (fun r c => r + 5 * c) [(11, 5); (10, 0); (10, 0)].
Proof. exact stores_once_example. Qed.
