(* Props_Int8Inputs.v: property theorems C64 (matrices of int8 entries) *)
From Verif Require Import Base CommonModel PackModel GemmSpec ComputeModel KernelSpec OutputModel OutputSpec OutputSimdSpec UnpackModel
  GemmModel GemmContract GemmProofs4 GemmExample SimdModel X86Model X86Example ArmModel ArmContract ArmInt8Inputs ArmExample
  SelectModel SelectContract SelectProofs Int8InputsExample.

(* C64: the kernels, on pairs of entries that are not both -128 *)
Theorem C64_int8_inputs_kernels : forall m K, neon_int8_inputs K ->
  kernel_correct_on (fun x y => x <> -128 \/ y <> -128) m K.
Proof. exact int8_inputs_correct. Qed.
Print Assumptions C64_int8_inputs_kernels.

(* the GEMM of two int8 matrices, the left one row-major and never -128, the
   right one column-major *)
Theorem C64_gemm_int8_inputs :
  forall m K t hw max_num_threads sc scs lhs rhs result lo ro p L R LO RO out before,
  neon_int8_inputs K ->
  tuning_ok t -> threads_ok (k_fmt K) hw max_num_threads (Z.max (mm_rows result) (mm_cols result)) ->
  mm_rows (op_map lhs) = mm_rows result -> mm_cols (op_map rhs) = mm_cols result -> mm_cols (op_map lhs) = mm_rows (op_map rhs) ->
  0 < mm_rows result /\ 0 < mm_cols result /\ 0 < mm_cols (op_map lhs) ->
  holds_entries (-128) (op_mem lhs) (op_map lhs) L -> holds_entries (-128) (op_mem rhs) (op_map rhs) R ->
  mm_order (op_map lhs) = RowMajor -> mm_order (op_map rhs) = ColMajor ->
  (forall r d, 0 <= r < mm_rows result -> 0 <= d < mm_cols (op_map lhs) -> L r d <> -128) ->
  col_vector lo (mm_rows result) LO -> row_vector ro (mm_cols result) RO ->
  m = Wrap \/ int32_safe (-128) 16 (mm_cols (op_map lhs)) (mm_rows result) (mm_cols result) LO RO ->
  (forall r c, 0 <= r < mm_rows result -> 0 <= c < mm_cols result ->
     pipe_at m p r c (wrapS 32 (offset_product L R LO RO (mm_cols (op_map lhs)) r c)) = Some (out r c)) ->
  vector_safe (k_out K) m p (mm_rows result) (mm_cols result) LO RO (offset_product L R LO RO (mm_cols (op_map lhs))) ->
  valid_view before result ->
  exists phases, DispatchGemmShape m K t hw max_num_threads sc scs lhs rhs result lo ro p = Some phases /\
    (exists trace, execution phases trace) /\
    forall trace, execution phases trace ->
      exists after, perform trace before = Some after /\ stored before after result out.
Proof. exact gemm_int8_inputs. Qed.
Print Assumptions C64_gemm_int8_inputs.
(* the hypotheses met, and what the model computes *)
Example C64_example :
  neon_int8_inputs (N4x2i_kernel (zregs 16) 1 2 afl0 loc0) /\ tuning_ok (ex_tune 64 64) /\ threads_ok N4x2i_fmt 4 3 4 /\
  holds_entries (-128) (op_mem ii_lhs) (op_map ii_lhs) iiL /\ holds_entries (-128) (op_mem ii_rhs) (op_map ii_rhs) iiR /\
  (forall r d, 0 <= r < 2 -> 0 <= d < 3 -> iiL r d <> -128) /\ iiR 0 0 = -128 /\
  int32_safe (-128) 16 3 2 4 iiLO iiRO /\
  (forall r c, 0 <= r < 2 -> 0 <= c < 4 -> pipe_at Trap ii_pipe r c (wrapS 32 (offset_product iiL iiR iiLO iiRO 3 r c)) = Some (ii_out r c)) /\
  (forall P, vector_safe (Some Neon) Trap ii_pipe 2 4 iiLO iiRO P) /\ valid_view ex_before ex_result /\
  offset_product iiL iiR iiLO iiRO 3 0 0 = (-127 + 3) * (-128 - 7) + (5 + 3) * (127 - 7) + (100 + 3) * (-128 - 7) /\
  DispatchGemmShape Trap (N4x2i_kernel (zregs 16) 1 2 afl0 loc0) (ex_tune 64 64) 4 3 (ex_scratch 1) (fun c n => ex_scratch (c + n))
    ii_lhs ii_rhs ex_result (VDup VCol 3 2) (VDup VRow (-7) 4) ii_pipe
  = Some [[[(10, ii_out 0 0); (13, ii_out 0 1); (16, ii_out 0 2); (19, ii_out 0 3);
            (11, ii_out 1 0); (14, ii_out 1 1); (17, ii_out 1 2); (20, ii_out 1 3)]]].
Proof.
  split; [now constructor|]. split; [apply ex_tune_ok; lia|]. split; [exact ii_threads|].
  split; [exact ii_holds_lhs|]. split; [exact ii_holds_rhs|]. split; [exact ii_above|]. split; [reflexivity|].
  split; [exact ii_safe|]. split; [exact (ii_pipe_at Trap)|]. split; [exact (ii_vector_safe Trap)|]. split; [exact ex_valid|].
  split; [reflexivity|]. vm_compute. reflexivity.
Qed.
(* The code for other storage orders does not compile (None in the model): a
   column-major left operand. *)
Theorem C64_column_major_lhs_refuted : exists K lhs rhs result lo ro p L R,
  neon_int8_inputs K /\ tuning_ok (ex_tune 64 64) /\ threads_ok (k_fmt K) 4 3 (Z.max (mm_rows result) (mm_cols result)) /\
  mm_rows (op_map lhs) = mm_rows result /\ mm_cols (op_map rhs) = mm_cols result /\ mm_cols (op_map lhs) = mm_rows (op_map rhs) /\
  holds_entries (-128) (op_mem lhs) (op_map lhs) L /\ holds_entries (-128) (op_mem rhs) (op_map rhs) R /\
  mm_order (op_map lhs) = ColMajor /\ mm_order (op_map rhs) = ColMajor /\
  forall m sc scs, DispatchGemmShape m K (ex_tune 64 64) 4 3 sc scs lhs rhs result lo ro p = None.
Proof. exact column_major_lhs_refuted. Qed.
Print Assumptions C64_column_major_lhs_refuted.

(* which kernel the ranges select, when the lhs may be negative *)
Theorem C64_choice_exists : forall p l r, or_min l < 0 ->
  (DefaultKernel p l r <> None <->
   (p = Neon32 \/ exists dot, p = Neon64 dot) /\ 4096 <= or_max l * or_max r /\ or_max l <= 127 /\ -128 < or_min l).
Proof. exact signed_selected. Qed.
Print Assumptions C64_choice_exists.
(* the selected kernel is modelled, takes int8 matrices and computes every GEMM
   whose operands lie in the ranges *)
Theorem C64_choice_serves : forall m p l r name, or_min l < 0 -> DefaultKernel p l r = Some name ->
  (exists K, is_kernel m name K) /\
  forall K, is_kernel m name K -> sf_kind (kf_lhs (k_fmt K)) = FInt8Inputs /\
    forall t hw max_num_threads sc scs lhs rhs result lo ro pipe L R LO RO out before,
    tuning_ok t -> threads_ok (k_fmt K) hw max_num_threads (Z.max (mm_rows result) (mm_cols result)) ->
    gemm_problem m K (op_mem lhs) (op_map lhs) (op_mem rhs) (op_map rhs) result lo ro pipe L R LO RO out ->
    within l (mm_rows result) (mm_cols (op_map lhs)) L -> within r (mm_cols (op_map lhs)) (mm_cols result) R ->
    valid_view before result ->
    exists phases, DispatchGemmShape m K t hw max_num_threads sc scs lhs rhs result lo ro pipe = Some phases /\
      (exists trace, execution phases trace) /\
      forall trace, execution phases trace ->
        exists after, perform trace before = Some after /\ stored before after result out.
Proof. exact signed_served. Qed.
Print Assumptions C64_choice_serves.
Example C64_choice_example :
  or_min Int8RangeExcludingLow < 0 /\ DefaultKernel Neon32 Int8RangeExcludingLow Int8Range = Some K_NEON_32bit_Int8_Int8Inputs /\
  DefaultKernel (Neon64 true) Int8RangeExcludingLow Int8Range = Some K_NEON_64bit_Int8_Int8Inputs /\
  DefaultKernel Neon32 Int8Range Int8Range = None /\
  within Int8RangeExcludingLow 2 3 iiL /\ within Int8Range 3 4 iiR.
Proof.
  split; [reflexivity|]. split; [reflexivity|]. split; [reflexivity|]. split; [reflexivity|].
  split; intros i j Hi Hj.
  - pose proof (proj2 (ii_holds_lhs i j Hi Hj)). pose proof (ii_above i j Hi Hj). unfold Int8RangeExcludingLow. cbn [or_min or_max]. lia.
  - pose proof (proj2 (ii_holds_rhs i j Hi Hj)). unfold Int8Range. cbn [or_min or_max]. lia.
Qed.
(* A finding: smaller signed ranges, inside ranges that have a kernel, have none
   on any target. *)
Theorem C64_small_ranges_refuted : exists l r,
  range_ok l /\ range_ok r /\ -128 < or_min l /\ or_max l <= 127 /\ -128 <= or_min r /\ or_max r <= 127 /\
  DefaultKernel Neon32 Int8RangeExcludingLow Int8Range <> None /\
  or_min Int8RangeExcludingLow <= or_min l /\ or_max l <= or_max Int8RangeExcludingLow /\
  forall p, DefaultKernel p l r = None.
Proof. exact small_signed_refuted. Qed.
Print Assumptions C64_small_ranges_refuted.

(* The previous contents of registers, flags and local memory do not influence the
   result, and only run levels are read: the counterpart of C57. *)
Theorem C64_int8_inputs_32_registers :
  forall junk t0 t1 fl loc junk' t0' t1' fl' loc' result dst cs lhs lp rhs rp start run A B old,
  length junk = 16%nat -> length junk' = 16%nat -> 0 < run -> (16 | run) ->
  (forall r c r' c', 0 <= r < 4 -> 0 <= c < 2 -> 0 <= r' < 4 -> 0 <= c' < 2 ->
     r * 1 + c * cs = r' * 1 + c' * cs -> r = r' /\ c = c') ->
  holds_run (kf_lhs N4x2i_fmt) lhs lp run A -> holds_run (kf_rhs N4x2i_fmt) rhs rp run B ->
  (forall r c, 0 <= r < 4 -> 0 <= c < 2 -> result (dst + (r * 1 + c * cs)) = Some (old r c)) ->
  exists r1 r2, k_run (N4x2i_kernel junk t0 t1 fl loc) result dst 1 cs lhs lp rhs rp start run = Some r1 /\
    k_run (N4x2i_kernel junk' t0' t1' fl' loc') result dst 1 cs lhs lp rhs rp start run = Some r2 /\ forall a, r1 a = r2 a.
Proof. exact N4x2i_junk. Qed.
Print Assumptions C64_int8_inputs_32_registers.
Theorem C64_int8_inputs_64_registers :
  forall junk t0 t1 fl loc junk' t0' t1' fl' loc' result dst cs lhs lp rhs rp start run A B old,
  length junk = 32%nat -> length junk' = 32%nat -> 0 < run -> (16 | run) ->
  (forall r c r' c', 0 <= r < 4 -> 0 <= c < 4 -> 0 <= r' < 4 -> 0 <= c' < 4 ->
     r * 1 + c * cs = r' * 1 + c' * cs -> r = r' /\ c = c') ->
  holds_run (kf_lhs N4x4i_fmt) lhs lp run A -> holds_run (kf_rhs N4x4i_fmt) rhs rp run B ->
  (forall r c, 0 <= r < 4 -> 0 <= c < 4 -> result (dst + (r * 1 + c * cs)) = Some (old r c)) ->
  exists r1 r2, k_run (N4x4i_kernel junk t0 t1 fl loc) result dst 1 cs lhs lp rhs rp start run = Some r1 /\
    k_run (N4x4i_kernel junk' t0' t1' fl' loc') result dst 1 cs lhs lp rhs rp start run = Some r2 /\ forall a, r1 a = r2 a.
Proof. exact N4x4i_junk. Qed.
Print Assumptions C64_int8_inputs_64_registers.
(* the hypotheses met by blocks of exactly 16 levels of negative numbers, with two
   different register files *)
Example C64_registers_example :
  holds_run (kf_lhs N4x2i_fmt) (pk_block (kf_lhs N4x2i_fmt) 16 minus) 100 16 minus /\
  holds_run (kf_rhs N4x2i_fmt) (pk_block (kf_rhs N4x2i_fmt) 16 minus) 100 16 minus /\
  pk_block (kf_lhs N4x2i_fmt) 16 minus (100 + 4 * 16) = None /\ minus 0 0 < 0 /\
  zregs 16 <> map (fun _ => 0) (zregs 16) /\
  option_map (fun m => m 20) (k_run (N4x2i_kernel (map (fun _ => 0) (zregs 16)) 7 8 (mk_af false true) kx_dst) kx_dst 20 1 13
      (pk_block (kf_lhs N4x2i_fmt) 16 minus) 100 (pk_block (kf_rhs N4x2i_fmt) 16 minus) 100 0 16) =
  option_map (fun m => m 20) (k_run (N4x2i_kernel (zregs 16) 1 2 afl0 loc0) kx_dst 20 1 13
      (pk_block (kf_lhs N4x2i_fmt) 16 minus) 100 (pk_block (kf_rhs N4x2i_fmt) 16 minus) 100 0 16) /\
  k_run (N4x2i_kernel (zregs 16) 1 2 afl0 loc0) kx_dst 20 1 13
      (pk_block (kf_lhs N4x2i_fmt) 16 minus) 100 (pk_block (kf_rhs N4x2i_fmt) 16 minus) 100 0 16 <> None.
Proof.
  split; [apply (pk_holds (kf_lhs N4x2i_fmt) 1 minus); try reflexivity; discriminate|].
  split; [apply (pk_holds (kf_rhs N4x2i_fmt) 1 minus); try reflexivity; discriminate|].
  split; [reflexivity|]. split; [reflexivity|]. split; [vm_compute; discriminate|]. split; [vm_compute; reflexivity|]. vm_compute. discriminate.
Qed.
