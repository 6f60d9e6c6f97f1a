(* ArmInt8Inputs.v: the NEON kernels for matrices of int8 entries.  They inherit
   Run from the int8 kernels for uint8 matrices and differ in the format, so in
   how the operands are packed. *)
From Verif Require Import Base BaseLemmas CommonModel PackModel PackSimdModel GemmSpec ComputeModel KernelSpec KernelProofs
  OutputModel OutputSpec UnpackModel GemmModel GemmContract GemmProofs3 GemmProofs4 SimdModel X86Model X86Contract
  ArmModel ArmKernels ArmInt8 ArmContract.

(* kernel_neon.h 930-936 and 1282-1288 *)
Definition N4x2i_fmt : kernel_fmt :=
  mk_kernel_fmt (mk_side_fmt 4 16 CWidthMajor 1 FInt8Inputs) (mk_side_fmt 2 16 CWidthMajor 1 FInt8Inputs) 16.
Definition N4x4i_fmt : kernel_fmt :=
  mk_kernel_fmt (mk_side_fmt 4 16 CWidthMajor 1 FInt8Inputs) (mk_side_fmt 4 16 CWidthMajor 1 FInt8Inputs) 16.
Definition N4x2i_kernel (junk : list reg) (t0 t1 : Z) (fl : aflags) (loc : mem) : kernel :=
  mk_kernel N4x2i_fmt (arm_Run false NEON_32bit_GEMM_Int8Operands_LhsNonzero_asm junk t0 t1 fl loc) neon_packer (Some Neon).
Definition N4x4i_kernel (junk : list reg) (t0 t1 : Z) (fl : aflags) (loc : mem) : kernel :=
  mk_kernel N4x4i_fmt (arm_Run false NEON_64bit_GEMM_Int8Operands_LhsNonzero_asm junk t0 t1 fl loc) neon_packer (Some Neon).

Lemma N4x2i_fmt_ok : kernel_fmt_ok N4x2i_fmt.
Proof. exact N4x2_fmt_ok. Qed.
Lemma N4x4i_fmt_ok : kernel_fmt_ok N4x4i_fmt.
Proof. exact N4x4_fmt_ok. Qed.
Lemma N4x2i_correct m junk t0 t1 fl loc : length junk = 16%nat -> kernel_correct_on not_both_min m (N4x2i_kernel junk t0 t1 fl loc).
Proof. exact (N4x2_correct m junk t0 t1 fl loc). Qed.
Lemma N4x4i_correct m junk t0 t1 fl loc : length junk = 32%nat -> kernel_correct_on not_both_min m (N4x4i_kernel junk t0 t1 fl loc).
Proof. exact (N4x4_correct m junk t0 t1 fl loc). Qed.
Lemma N4x2i_junk junk t0 t1 fl loc junk' t0' t1' fl' loc' result dst cs lhs lp rhs rp start run A B old :
  length junk = 16%nat -> length junk' = 16%nat -> 0 < run -> (16 | run) ->
  (forall r c r' c', 0 <= r < 4 -> 0 <= c < 2 -> 0 <= r' < 4 -> 0 <= c' < 2 ->
     r * 1 + c * cs = r' * 1 + c' * cs -> r = r' /\ c = c') ->
  holds_run (kf_lhs N4x2i_fmt) lhs lp run A -> holds_run (kf_rhs N4x2i_fmt) rhs rp run B ->
  (forall r c, 0 <= r < 4 -> 0 <= c < 2 -> result (dst + (r * 1 + c * cs)) = Some (old r c)) ->
  exists r1 r2, k_run (N4x2i_kernel junk t0 t1 fl loc) result dst 1 cs lhs lp rhs rp start run = Some r1 /\
    k_run (N4x2i_kernel junk' t0' t1' fl' loc') result dst 1 cs lhs lp rhs rp start run = Some r2 /\ forall a, r1 a = r2 a.
Proof. exact (N4x2_junk junk t0 t1 fl loc junk' t0' t1' fl' loc' result dst cs lhs lp rhs rp start run A B old). Qed.
Lemma N4x4i_junk junk t0 t1 fl loc junk' t0' t1' fl' loc' result dst cs lhs lp rhs rp start run A B old :
  length junk = 32%nat -> length junk' = 32%nat -> 0 < run -> (16 | run) ->
  (forall r c r' c', 0 <= r < 4 -> 0 <= c < 4 -> 0 <= r' < 4 -> 0 <= c' < 4 ->
     r * 1 + c * cs = r' * 1 + c' * cs -> r = r' /\ c = c') ->
  holds_run (kf_lhs N4x4i_fmt) lhs lp run A -> holds_run (kf_rhs N4x4i_fmt) rhs rp run B ->
  (forall r c, 0 <= r < 4 -> 0 <= c < 4 -> result (dst + (r * 1 + c * cs)) = Some (old r c)) ->
  exists r1 r2, k_run (N4x4i_kernel junk t0 t1 fl loc) result dst 1 cs lhs lp rhs rp start run = Some r1 /\
    k_run (N4x4i_kernel junk' t0' t1' fl' loc') result dst 1 cs lhs lp rhs rp start run = Some r2 /\ forall a, r1 a = r2 a.
Proof. exact (N4x4_junk junk t0 t1 fl loc junk' t0' t1' fl' loc' result dst cs lhs lp rhs rp start run A B old). Qed.

Inductive neon_int8_inputs : kernel -> Prop :=
  | nii_4x2 : forall junk t0 t1 fl loc, length junk = 16%nat -> neon_int8_inputs (N4x2i_kernel junk t0 t1 fl loc)
  | nii_4x4 : forall junk t0 t1 fl loc, length junk = 32%nat -> neon_int8_inputs (N4x4i_kernel junk t0 t1 fl loc).
Lemma int8_inputs_correct m K : neon_int8_inputs K -> kernel_correct_on not_both_min m K.
Proof. intros [? ? ? ? ? H|? ? ? ? ? H]; [now apply N4x2i_correct|now apply N4x4i_correct]. Qed.
Lemma int8_inputs_packs m K : neon_int8_inputs K -> packs_correct m K.
Proof. intros H. apply neon_packs; destruct H; first [reflexivity|exact N4x2i_fmt_ok|exact N4x4i_fmt_ok]. Qed.
Lemma int8_inputs_fmt K : neon_int8_inputs K -> kernel_fmt_ok (k_fmt K) /\
  sf_zp (kf_lhs (k_fmt K)) = 0 /\ sf_zp (kf_rhs (k_fmt K)) = 0 /\ in_min (kf_lhs (k_fmt K)) = -128 /\ in_min (kf_rhs (k_fmt K)) = -128.
Proof. intros []; (split; [first [exact N4x2i_fmt_ok|exact N4x4i_fmt_ok]|repeat split]). Qed.

(* the GEMM of two int8 matrices, spelled out *)
Lemma gemm_int8_inputs m K t hw max_num_threads sc scs lhs rhs result lo ro p L R LO RO out before :
  neon_int8_inputs K ->
  tuning_ok t -> threads_ok (k_fmt K) hw max_num_threads (Z.max (mm_rows result) (mm_cols result)) ->
  mm_rows (op_map lhs) = mm_rows result -> mm_cols (op_map rhs) = mm_cols result -> mm_cols (op_map lhs) = mm_rows (op_map rhs) ->
  0 < mm_rows result /\ 0 < mm_cols result /\ 0 < mm_cols (op_map lhs) ->
  holds_entries (-128) (op_mem lhs) (op_map lhs) L -> holds_entries (-128) (op_mem rhs) (op_map rhs) R ->
  mm_order (op_map lhs) = RowMajor -> mm_order (op_map rhs) = ColMajor ->
  (forall r d, 0 <= r < mm_rows result -> 0 <= d < mm_cols (op_map lhs) -> L r d <> -128) ->
  col_vector lo (mm_rows result) LO -> row_vector ro (mm_cols result) RO ->
  m = Wrap \/ int32_safe (-128) 16 (mm_cols (op_map lhs)) (mm_rows result) (mm_cols result) LO RO ->
  (forall r c, 0 <= r < mm_rows result -> 0 <= c < mm_cols result ->
     pipe_at m p r c (wrapS 32 (offset_product L R LO RO (mm_cols (op_map lhs)) r c)) = Some (out r c)) ->
  vector_safe (k_out K) m p (mm_rows result) (mm_cols result) LO RO (offset_product L R LO RO (mm_cols (op_map lhs))) ->
  valid_view before result ->
  exists phases, DispatchGemmShape m K t hw max_num_threads sc scs lhs rhs result lo ro p = Some phases /\
    (exists trace, execution phases trace) /\
    forall trace, execution phases trace ->
      exists after, perform trace before = Some after /\ stored before after result out.
Proof.
  intros HK Ht Hth E1 E2 E3 Hpos HL HR OL OR Hmin Hlo Hro Ha Hp Hvs Hv.
  destruct (int8_inputs_fmt K HK) as (F1 & Z1 & Z2 & I1 & I2).
  apply (gemm_on not_both_min m K) with (L := L) (R := R) (LO := LO) (RO := RO); try assumption.
  - apply correct_usable_on. now apply int8_inputs_correct.
  - now apply int8_inputs_packs.
  - left. discriminate.
  - constructor; try assumption.
    + split; [rewrite I1; exact HL|intros _; exact OL].
    + split; [rewrite I2; exact HR|intros _; exact OR].
    + rewrite I1. replace (kf_reg (k_fmt K)) with 16 by (destruct HK; reflexivity). exact Ha.
    + congruence.
  - intros r c d Hr Hc Hd. pose proof (Hmin r d Hr Hd). rewrite Z1, Z2. unfold not_both_min. lia.
Qed.
