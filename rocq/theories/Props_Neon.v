(* Props_Neon.v: property theorems C41, C56 and C57, about the inline assembly of
   internal/kernel_neon.h.  ArmModel.v gives the instructions, ArmKernels.v the
   programs; junk, t0, t1, fl, loc are the previous contents of the vector
   registers, scratch registers, flags and local array. *)
From Verif Require Import Base CommonModel PackModel GemmSpec ComputeModel KernelSpec KernelProofs
  OutputModel OutputSpec UnpackModel GemmModel GemmContract GemmProofs4 GemmExample
  SimdModel X86Model X86Example ArmModel ArmKernels ArmInt8 ArmContract ArmExample.

(* C56: the uint8 kernels meet the contract that the GEMM theorems require of a kernel *)
Theorem C56_neon32_kernel : forall m junk t0 t1 fl loc, length junk = 16%nat ->
  kernel_correct m (N12x4_kernel junk t0 t1 fl loc).
Proof. exact N12x4_correct. Qed.
Print Assumptions C56_neon32_kernel.
Theorem C56_neon64_kernel : forall m junk t0 t1 fl loc, length junk = 32%nat ->
  kernel_correct m (N12x8_kernel junk t0 t1 fl loc).
Proof. exact N12x8_correct. Qed.
Print Assumptions C56_neon64_kernel.
Theorem C56_neon64_dotprod_kernel : forall m junk t0 t1 fl loc, length junk = 32%nat ->
  kernel_correct m (Ndot_kernel junk t0 t1 fl loc).
Proof. exact Ndot_correct. Qed.
Print Assumptions C56_neon64_dotprod_kernel.
(* 6 levels in 12 rows, 4 or 8 columns; the destination keeps its other entries *)
Example C56_example :
  holds_run (kf_lhs N12x8_fmt) (pk_block (kf_lhs N12x8_fmt) 6 naA) 100 6 naA /\
  holds_run (kf_rhs N12x8_fmt) (pk_block (kf_rhs N12x8_fmt) 6 naB) 100 6 naB /\
  option_map (fun m => map m [20; 31; 32; 20 + 13; 20 + 11 + 7 * 13; 20 + 12 + 7 * 13])
    (k_run (N12x8_kernel (zregs 32) 1 2 afl0 loc0) kx_dst 20 1 13
       (pk_block (kf_lhs N12x8_fmt) 6 naA) 100 (pk_block (kf_rhs N12x8_fmt) 6 naB) 100 16 6)
  = Some (map (fun x => Some x)
      [kx_old 13 0 0 + sumZ (fun d => naA 0 d * naB 0 d) 0 6; kx_old 13 11 0 + sumZ (fun d => naA 11 d * naB 0 d) 0 6; kx_old 13 12 0;
       kx_old 13 0 1 + sumZ (fun d => naA 0 d * naB 1 d) 0 6; kx_old 13 11 7 + sumZ (fun d => naA 11 d * naB 7 d) 0 6; kx_old 13 12 7]).
Proof.
  split; [apply (pk_holds (kf_lhs N12x8_fmt) 3 naA); try reflexivity; [discriminate|exact naA_byte]|].
  split; [apply (pk_holds (kf_rhs N12x8_fmt) 3 naB); try reflexivity; [discriminate|exact naB_byte]|].
  vm_compute. reflexivity.
Qed.
Example C56_example_32 :
  option_map (fun m => map m [20; 31; 32; 20 + 13; 20 + 11 + 3 * 13])
    (k_run (N12x4_kernel (zregs 16) 1 2 afl0 loc0) kx_dst 20 1 13
       (pk_block (kf_lhs N12x4_fmt) 6 naA) 100 (pk_block (kf_rhs N12x4_fmt) 6 naB) 100 0 6)
  = Some (map (fun x => Some x)
      [sumZ (fun d => naA 0 d * naB 0 d) 0 6; sumZ (fun d => naA 11 d * naB 0 d) 0 6; kx_old 13 12 0;
       sumZ (fun d => naA 0 d * naB 1 d) 0 6; sumZ (fun d => naA 11 d * naB 3 d) 0 6]).
Proof. vm_compute. reflexivity. Qed.
Example C56_example_dotprod :
  option_map (fun m => map m [20; 31; 32; 20 + 13; 20 + 11 + 7 * 13])
    (k_run (Ndot_kernel (zregs 32) 1 2 afl0 loc0) kx_dst 20 1 13
       (pk_block (kf_lhs Ndot_fmt) 8 naA) 100 (pk_block (kf_rhs Ndot_fmt) 8 naB) 100 0 8)
  = Some (map (fun x => Some x)
      [sumZ (fun d => naA 0 d * naB 0 d) 0 8; sumZ (fun d => naA 11 d * naB 0 d) 0 8; kx_old 13 12 0;
       sumZ (fun d => naA 0 d * naB 1 d) 0 8; sumZ (fun d => naA 11 d * naB 7 d) 0 8]).
Proof. vm_compute. reflexivity. Qed.
(* what a whole GEMM on one of these kernels stores *)
Theorem C56_gemm_neon :
  forall m K t hw max_num_threads sc scs lhs rhs result lo ro p L R LO RO out before,
  neon_uint8 K ->
  tuning_ok t -> threads_ok (k_fmt K) hw max_num_threads (Z.max (mm_rows result) (mm_cols result)) ->
  gemm_problem m K (op_mem lhs) (op_map lhs) (op_mem rhs) (op_map rhs) result lo ro p L R LO RO out ->
  valid_view before result ->
  exists phases, DispatchGemmShape m K t hw max_num_threads sc scs lhs rhs result lo ro p = Some phases /\
    (exists trace, execution phases trace) /\
    forall trace, execution phases trace ->
      exists after, perform trace before = Some after /\ stored before after result out.
Proof. exact gemm_neon. Qed.
Print Assumptions C56_gemm_neon.
Example C56_gemm_example :
  neon_uint8 (N12x8_kernel (zregs 32) 1 2 afl0 loc0) /\ tuning_ok (ex_tune 64 64) /\ threads_ok N12x8_fmt 4 3 4 /\
  gemm_problem Trap (N12x8_kernel (zregs 32) 1 2 afl0 loc0) (op_mem ex_lhs) (op_map ex_lhs) (op_mem ex_rhs) (op_map ex_rhs) ex_result ex_lo ex_ro ex_pipe
    exL exR exLO exRO ex_out /\
  valid_view ex_before ex_result /\
  DispatchGemmShape Trap (N12x8_kernel (zregs 32) 1 2 afl0 loc0) (ex_tune 64 64) 4 3 (ex_scratch 1) (fun c n => ex_scratch (c + n))
    ex_lhs ex_rhs ex_result ex_lo ex_ro ex_pipe
  = Some [[[(10, 81); (13, 255); (16, 0); (19, 0); (11, 40); (14, 255); (17, 137); (20, 0)]]].
Proof.
  split; [constructor; reflexivity|].
  destruct (ex_config_ok Trap ex_fmt1 64 64 4 3) as (_ & _ & _ & T & _); [auto|lia|lia|lia|].
  split; [exact T|]. split; [exact ex_threads_neon|]. split; [apply ex_problem; [cbn; lia|split; discriminate]|]. split; [exact ex_valid|].
  vm_compute. reflexivity.
Qed.

(* C41: two products fit 16 bits if neither lhs value is -128 *)
Theorem C41_two_products : forall x1 y1 x2 y2,
  -128 <= x1 <= 127 -> -128 <= y1 <= 127 -> -128 <= x2 <= 127 -> -128 <= y2 <= 127 ->
  x1 <> -128 -> x2 <> -128 -> - 2 ^ 15 <= x1 * y1 + x2 * y2 <= 2 ^ 15 - 1.
Proof. exact two_products. Qed.
Print Assumptions C41_two_products.
Example C41_two_products_example : -127 * -128 + -127 * -128 = 32512 /\ -128 * -128 + -128 * -128 = 2 ^ 15.
Proof. split; reflexivity. Qed.
(* the int8 kernels meet the contract on entries that never multiply -128 by -128 *)
Theorem C41_int8_32_kernel : forall m junk t0 t1 fl loc, length junk = 16%nat ->
  kernel_correct_on (fun x y => x <> -128 \/ y <> -128) m (N4x2_kernel junk t0 t1 fl loc).
Proof. exact N4x2_correct. Qed.
Print Assumptions C41_int8_32_kernel.
Theorem C41_int8_64_kernel : forall m junk t0 t1 fl loc, length junk = 32%nat ->
  kernel_correct_on (fun x y => x <> -128 \/ y <> -128) m (N4x4_kernel junk t0 t1 fl loc).
Proof. exact N4x4_correct. Qed.
Print Assumptions C41_int8_64_kernel.
(* 32 levels with column 0 of the rhs all -128 and products of both signs *)
Example C41_example :
  holds_run (kf_lhs N4x4_fmt) (pk_block (kf_lhs N4x4_fmt) 32 siA) 100 32 siA /\
  holds_run (kf_rhs N4x4_fmt) (pk_block (kf_rhs N4x4_fmt) 32 siB) 100 32 siB /\
  (forall r c d, siA r d <> -128 \/ siB c d <> -128) /\ siB 0 5 = -128 /\ siA 0 3 < 0 < siA 0 4 /\
  option_map (fun m => map m [20; 23; 24; 20 + 13; 20 + 3 + 3 * 13])
    (k_run (N4x4_kernel (zregs 32) 1 2 afl0 loc0) kx_dst 20 1 13
       (pk_block (kf_lhs N4x4_fmt) 32 siA) 100 (pk_block (kf_rhs N4x4_fmt) 32 siB) 100 16 32)
  = Some (map (fun x => Some x)
      [kx_old 13 0 0 + sumZ (fun d => siA 0 d * siB 0 d) 0 32; kx_old 13 3 0 + sumZ (fun d => siA 3 d * siB 0 d) 0 32; kx_old 13 4 0;
       kx_old 13 0 1 + sumZ (fun d => siA 0 d * siB 1 d) 0 32; kx_old 13 3 3 + sumZ (fun d => siA 3 d * siB 3 d) 0 32]).
Proof.
  split; [apply (pk_holds (kf_lhs N4x4_fmt) 2 siA); try reflexivity; [discriminate|exact siA_byte]|].
  split; [apply (pk_holds (kf_rhs N4x4_fmt) 2 siB); try reflexivity; [discriminate|exact siB_byte]|].
  split; [exact si_ok|]. split; [reflexivity|]. split; [vm_compute; split; reflexivity|]. vm_compute. reflexivity.
Qed.
Example C41_example_32 :
  option_map (fun m => map m [20; 23; 24; 20 + 13; 20 + 3 + 13])
    (k_run (N4x2_kernel (zregs 16) 1 2 afl0 loc0) kx_dst 20 1 13
       (pk_block (kf_lhs N4x2_fmt) 32 siA) 100 (pk_block (kf_rhs N4x2_fmt) 32 siB) 100 16 32)
  = Some (map (fun x => Some x)
      [kx_old 13 0 0 + sumZ (fun d => siA 0 d * siB 0 d) 0 32; kx_old 13 3 0 + sumZ (fun d => siA 3 d * siB 0 d) 0 32; kx_old 13 4 0;
       kx_old 13 0 1 + sumZ (fun d => siA 0 d * siB 1 d) 0 32; kx_old 13 3 1 + sumZ (fun d => siA 3 d * siB 1 d) 0 32]).
Proof. vm_compute. reflexivity. Qed.
(* a whole GEMM on an int8 kernel is exact when no lhs byte is 0 (the packing
   subtracts 128) *)
Theorem C41_gemm_lhs_nonzero :
  forall m K t hw max_num_threads sc scs lhs rhs result lo ro p L R LO RO out before,
  neon_int8 K ->
  tuning_ok t -> threads_ok (k_fmt K) hw max_num_threads (Z.max (mm_rows result) (mm_cols result)) ->
  gemm_problem m K (op_mem lhs) (op_map lhs) (op_mem rhs) (op_map rhs) result lo ro p L R LO RO out ->
  (forall r d, 0 <= r < mm_rows result -> 0 <= d < mm_cols (op_map lhs) -> L r d <> 0) ->
  valid_view before result ->
  exists phases, DispatchGemmShape m K t hw max_num_threads sc scs lhs rhs result lo ro p = Some phases /\
    (exists trace, execution phases trace) /\
    forall trace, execution phases trace ->
      exists after, perform trace before = Some after /\ stored before after result out.
Proof. exact gemm_neon_int8. Qed.
Print Assumptions C41_gemm_lhs_nonzero.
Example C41_gemm_example :
  neon_int8 (N4x2_kernel (zregs 16) 1 2 afl0 loc0) /\ tuning_ok (ex_tune 64 64) /\ threads_ok N4x2_fmt 4 3 4 /\
  gemm_problem Trap (N4x2_kernel (zregs 16) 1 2 afl0 loc0) (op_mem ex_lhs) (op_map ex_lhs) (op_mem ex_rhs) (op_map ex_rhs) ex_result ex_lo ex_ro ex_pipe
    exL exR exLO exRO ex_out /\
  forallb (fun r => forallb (fun d => negb (exL r d =? 0)) [0; 1; 2]) [0; 1] = true /\
  valid_view ex_before ex_result /\
  DispatchGemmShape Trap (N4x2_kernel (zregs 16) 1 2 afl0 loc0) (ex_tune 64 64) 4 3 (ex_scratch 1) (fun c n => ex_scratch (c + n))
    ex_lhs ex_rhs ex_result ex_lo ex_ro ex_pipe
  = Some [[[(10, 81); (13, 255); (16, 0); (19, 0); (11, 40); (14, 255); (17, 137); (20, 0)]]].
Proof.
  split; [constructor; reflexivity|].
  destruct (ex_config_ok Trap ex_fmt1 64 64 4 3) as (_ & _ & _ & T & _); [auto|lia|lia|lia|].
  split; [exact T|]. split; [exact ex_threads_neon8|]. split; [apply ex_problem; [cbn; lia|split; discriminate]|]. split; [reflexivity|]. split; [exact ex_valid|].
  vm_compute. reflexivity.
Qed.
(* the restriction is necessary *)
Theorem C41_int8_32_any_pair_refuted : exists junk t0 t1 fl loc, length junk = 16%nat /\
  ~ kernel_correct Wrap (N4x2_kernel junk t0 t1 fl loc).
Proof. exact N4x2_any_pair_refuted. Qed.
Print Assumptions C41_int8_32_any_pair_refuted.
Theorem C41_int8_64_any_pair_refuted : exists junk t0 t1 fl loc, length junk = 32%nat /\
  ~ kernel_correct Wrap (N4x4_kernel junk t0 t1 fl loc).
Proof. exact N4x4_any_pair_refuted. Qed.
Print Assumptions C41_int8_64_any_pair_refuted.

(* C57: the previous contents of registers, flags and local memory do not
   influence the result, and only run levels are read *)
Theorem C57_neon32_registers :
  forall junk t0 t1 fl loc junk' t0' t1' fl' loc' result dst cs lhs lp rhs rp start run A B old,
  length junk = 16%nat -> length junk' = 16%nat -> 0 < run -> (2 | run) ->
  (forall r c r' c', 0 <= r < 12 -> 0 <= c < 4 -> 0 <= r' < 12 -> 0 <= c' < 4 ->
     r * 1 + c * cs = r' * 1 + c' * cs -> r = r' /\ c = c') ->
  holds_run (kf_lhs N12x4_fmt) lhs lp run A -> holds_run (kf_rhs N12x4_fmt) rhs rp run B ->
  (forall r c, 0 <= r < 12 -> 0 <= c < 4 -> result (dst + (r * 1 + c * cs)) = Some (old r c)) ->
  exists r1 r2, k_run (N12x4_kernel junk t0 t1 fl loc) result dst 1 cs lhs lp rhs rp start run = Some r1 /\
    k_run (N12x4_kernel junk' t0' t1' fl' loc') result dst 1 cs lhs lp rhs rp start run = Some r2 /\ forall a, r1 a = r2 a.
Proof. exact N12x4_junk. Qed.
Print Assumptions C57_neon32_registers.
Theorem C57_neon64_registers :
  forall junk t0 t1 fl loc junk' t0' t1' fl' loc' result dst cs lhs lp rhs rp start run A B old,
  length junk = 32%nat -> length junk' = 32%nat -> 0 < run -> (2 | run) ->
  (forall r c r' c', 0 <= r < 12 -> 0 <= c < 8 -> 0 <= r' < 12 -> 0 <= c' < 8 ->
     r * 1 + c * cs = r' * 1 + c' * cs -> r = r' /\ c = c') ->
  holds_run (kf_lhs N12x8_fmt) lhs lp run A -> holds_run (kf_rhs N12x8_fmt) rhs rp run B ->
  (forall r c, 0 <= r < 12 -> 0 <= c < 8 -> result (dst + (r * 1 + c * cs)) = Some (old r c)) ->
  exists r1 r2, k_run (N12x8_kernel junk t0 t1 fl loc) result dst 1 cs lhs lp rhs rp start run = Some r1 /\
    k_run (N12x8_kernel junk' t0' t1' fl' loc') result dst 1 cs lhs lp rhs rp start run = Some r2 /\ forall a, r1 a = r2 a.
Proof. exact N12x8_junk. Qed.
Print Assumptions C57_neon64_registers.
Theorem C57_dotprod_registers :
  forall junk t0 t1 fl loc junk' t0' t1' fl' loc' result dst cs lhs lp rhs rp start run A B old,
  length junk = 32%nat -> length junk' = 32%nat -> 0 < run -> (4 | run) ->
  (forall r c r' c', 0 <= r < 12 -> 0 <= c < 8 -> 0 <= r' < 12 -> 0 <= c' < 8 ->
     r * 1 + c * cs = r' * 1 + c' * cs -> r = r' /\ c = c') ->
  holds_run (kf_lhs Ndot_fmt) lhs lp run A -> holds_run (kf_rhs Ndot_fmt) rhs rp run B ->
  (forall r c, 0 <= r < 12 -> 0 <= c < 8 -> result (dst + (r * 1 + c * cs)) = Some (old r c)) ->
  exists r1 r2, k_run (Ndot_kernel junk t0 t1 fl loc) result dst 1 cs lhs lp rhs rp start run = Some r1 /\
    k_run (Ndot_kernel junk' t0' t1' fl' loc') result dst 1 cs lhs lp rhs rp start run = Some r2 /\ forall a, r1 a = r2 a.
Proof. exact Ndot_junk. Qed.
Print Assumptions C57_dotprod_registers.
Theorem C57_int8_32_registers :
  forall junk t0 t1 fl loc junk' t0' t1' fl' loc' result dst cs lhs lp rhs rp start run A B old,
  length junk = 16%nat -> length junk' = 16%nat -> 0 < run -> (16 | run) ->
  (forall r c r' c', 0 <= r < 4 -> 0 <= c < 2 -> 0 <= r' < 4 -> 0 <= c' < 2 ->
     r * 1 + c * cs = r' * 1 + c' * cs -> r = r' /\ c = c') ->
  holds_run (kf_lhs N4x2_fmt) lhs lp run A -> holds_run (kf_rhs N4x2_fmt) rhs rp run B ->
  (forall r c, 0 <= r < 4 -> 0 <= c < 2 -> result (dst + (r * 1 + c * cs)) = Some (old r c)) ->
  exists r1 r2, k_run (N4x2_kernel junk t0 t1 fl loc) result dst 1 cs lhs lp rhs rp start run = Some r1 /\
    k_run (N4x2_kernel junk' t0' t1' fl' loc') result dst 1 cs lhs lp rhs rp start run = Some r2 /\ forall a, r1 a = r2 a.
Proof. exact N4x2_junk. Qed.
Print Assumptions C57_int8_32_registers.
Theorem C57_int8_64_registers :
  forall junk t0 t1 fl loc junk' t0' t1' fl' loc' result dst cs lhs lp rhs rp start run A B old,
  length junk = 32%nat -> length junk' = 32%nat -> 0 < run -> (16 | run) ->
  (forall r c r' c', 0 <= r < 4 -> 0 <= c < 4 -> 0 <= r' < 4 -> 0 <= c' < 4 ->
     r * 1 + c * cs = r' * 1 + c' * cs -> r = r' /\ c = c') ->
  holds_run (kf_lhs N4x4_fmt) lhs lp run A -> holds_run (kf_rhs N4x4_fmt) rhs rp run B ->
  (forall r c, 0 <= r < 4 -> 0 <= c < 4 -> result (dst + (r * 1 + c * cs)) = Some (old r c)) ->
  exists r1 r2, k_run (N4x4_kernel junk t0 t1 fl loc) result dst 1 cs lhs lp rhs rp start run = Some r1 /\
    k_run (N4x4_kernel junk' t0' t1' fl' loc') result dst 1 cs lhs lp rhs rp start run = Some r2 /\ forall a, r1 a = r2 a.
Proof. exact N4x4_junk. Qed.
Print Assumptions C57_int8_64_registers.
(* hypotheses met by blocks of exactly 16 levels, with two different register files *)
Example C57_example :
  holds_run (kf_lhs N4x2_fmt) (pk_block (kf_lhs N4x2_fmt) 16 minus) 100 16 minus /\
  holds_run (kf_rhs N4x2_fmt) (pk_block (kf_rhs N4x2_fmt) 16 minus) 100 16 minus /\
  pk_block (kf_lhs N4x2_fmt) 16 minus (100 + 4 * 16) = None /\
  zregs 16 <> map (fun _ => 0) (zregs 16) /\
  option_map (fun m => m 20) (k_run (N4x2_kernel (map (fun _ => 0) (zregs 16)) 7 8 (mk_af false true) kx_dst) kx_dst 20 1 13
      (pk_block (kf_lhs N4x2_fmt) 16 minus) 100 (pk_block (kf_rhs N4x2_fmt) 16 minus) 100 0 16) =
  option_map (fun m => m 20) (k_run (N4x2_kernel (zregs 16) 1 2 afl0 loc0) kx_dst 20 1 13
      (pk_block (kf_lhs N4x2_fmt) 16 minus) 100 (pk_block (kf_rhs N4x2_fmt) 16 minus) 100 0 16).
Proof.
  split; [apply (pk_holds (kf_lhs N4x2_fmt) 1 minus); try reflexivity; discriminate|].
  split; [apply (pk_holds (kf_rhs N4x2_fmt) 1 minus); try reflexivity; discriminate|].
  split; [reflexivity|]. split; [vm_compute; discriminate|]. vm_compute. reflexivity.
Qed.
