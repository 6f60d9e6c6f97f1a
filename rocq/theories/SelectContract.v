(* SelectContract.v: what the compile-time choice of a kernel has to guarantee *)
From Verif Require Import Base BaseLemmas CommonModel PackModel GemmSpec ComputeModel KernelSpec OutputModel OutputSpec UnpackModel
  GemmModel GemmContract SimdModel X86Model X86Contract ArmModel ArmContract ArmInt8Inputs Bits12Contract MsaContract SelectModel.

(* The kernel models behind the names, for any previous register contents *)
Inductive is_kernel (m : ovf) : kname -> kernel -> Prop :=
  | ik_32 : forall junk t0 t1 fl loc, length junk = 16%nat ->
      is_kernel m K_NEON_32_Kernel12x4Depth2 (N12x4_kernel junk t0 t1 fl loc)
  | ik_12b : forall junk t0 t1 fl loc, length junk = 16%nat -> loc_ok loc ->
      is_kernel m K_NEON_32_Kernel12x4Depth2Assuming12BitProducts (N12b_kernel junk t0 t1 fl loc)
  | ik_4x2 : forall junk t0 t1 fl loc, length junk = 16%nat ->
      is_kernel m K_NEON_32bit_Int8 (N4x2_kernel junk t0 t1 fl loc)
  | ik_64 : forall junk t0 t1 fl loc, length junk = 32%nat ->
      is_kernel m K_NEON_64_Kernel12x8Depth2 (N12x8_kernel junk t0 t1 fl loc)
  | ik_dot : forall junk t0 t1 fl loc, length junk = 32%nat ->
      is_kernel m K_NEON_64_Kernel12x8Depth4_dotprod (Ndot_kernel junk t0 t1 fl loc)
  | ik_4x4 : forall junk t0 t1 fl loc, length junk = 32%nat ->
      is_kernel m K_NEON_64bit_Int8 (N4x4_kernel junk t0 t1 fl loc)
  | ik_s32 : forall junk t0 t1 t2 fl, length junk = 8%nat ->
      is_kernel m K_SSE4_32_Kernel4x4Depth2 (SSE32_kernel junk t0 t1 t2 fl)
  | ik_s64 : forall junk t0 t1 t2 fl, length junk = 16%nat ->
      is_kernel m K_SSE4_64_Kernel12x4Depth2 (SSE64_kernel junk t0 t1 t2 fl)
  | ik_avx2 : forall junk t0 t1 t2 fl, length junk = 16%nat ->
      is_kernel m K_AVX2_64_Kernel24x8Depth2 (AVX2_kernel junk t0 t1 t2 fl)
  (* kernel_default.h 108-113 *)
  | ik_ref :
      is_kernel m K_Reference (ReferenceKernel m
        (mk_kernel_fmt (mk_side_fmt 4 16 CWidthMajor 1 FUint8) (mk_side_fmt 4 16 CWidthMajor 1 FUint8) 16))
  | ik_4x2i : forall junk t0 t1 fl loc, length junk = 16%nat ->
      is_kernel m K_NEON_32bit_Int8_Int8Inputs (N4x2i_kernel junk t0 t1 fl loc)
  | ik_4x4i : forall junk t0 t1 fl loc, length junk = 32%nat ->
      is_kernel m K_NEON_64bit_Int8_Int8Inputs (N4x4i_kernel junk t0 t1 fl loc)
  | ik_msa : forall asm junk t0 t1, length junk = 32%nat ->
      is_kernel m K_MSA_Kernel12x8Depth2 (M12x8_kernel asm junk t0 t1)
  | ik_msa8 : forall asm junk t0 t1, length junk = 32%nat ->
      is_kernel m K_MSA_Int8 (M4x4_kernel asm junk t0 t1).
(* entries of a matrix within a range *)
Definition within (r : operand_range) (rows cols : Z) (M : Z -> Z -> Z) : Prop :=
  forall i j, 0 <= i < rows -> 0 <= j < cols -> or_min r <= M i j <= or_max r.
(* every GEMM whose operands lie in the two ranges stores the specified result *)
Definition serves (m : ovf) (K : kernel) (l r : operand_range) : Prop :=
  forall t hw max_num_threads sc scs lhs rhs result lo ro p L R LO RO out before,
  tuning_ok t -> threads_ok (k_fmt K) hw max_num_threads (Z.max (mm_rows result) (mm_cols result)) ->
  gemm_problem m K (op_mem lhs) (op_map lhs) (op_mem rhs) (op_map rhs) result lo ro p L R LO RO out ->
  within l (mm_rows result) (mm_cols (op_map lhs)) L -> within r (mm_cols (op_map lhs)) (mm_cols result) R ->
  valid_view before result ->
  exists phases, DispatchGemmShape m K t hw max_num_threads sc scs lhs rhs result lo ro p = Some phases /\
    (exists trace, execution phases trace) /\
    forall trace, execution phases trace ->
      exists after, perform trace before = Some after /\ stored before after result out.
