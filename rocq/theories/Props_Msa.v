(* Props_Msa.v: property theorem C66, about the inline assembly of
   internal/kernel_msa.h with the packing code of pack_msa.h.  MsaModel.v gives the
   instructions, MsaKernels.v the programs; junk, t0, t1 are the previous contents
   of the vector registers and the scratch registers, asm the variant of the widest
   stores of output_msa.h. *)
From Verif Require Import Base CommonModel PackModel GemmSpec ComputeModel KernelSpec KernelProofs
  OutputModel OutputSpec UnpackModel GemmModel GemmContract GemmProofs4 GemmExample
  SimdModel X86Model X86Example ArmModel ArmInt8 ArmContract ArmExample MsaModel MsaKernels MsaContract MsaExample.

(* the uint8 kernel meets the contract that the GEMM theorems require of a kernel *)
Theorem C66_msa_kernel : forall m asm junk t0 t1, length junk = 32%nat ->
  kernel_correct m (M12x8_kernel asm junk t0 t1).
Proof. exact M12x8_correct. Qed.
Print Assumptions C66_msa_kernel.
(* 6 levels in 12 rows and 8 columns; the destination keeps its other entries *)
Example C66_example :
  holds_run (kf_lhs M12x8_fmt) (pk_block (kf_lhs M12x8_fmt) 6 naA) 100 6 naA /\
  holds_run (kf_rhs M12x8_fmt) (pk_block (kf_rhs M12x8_fmt) 6 naB) 100 6 naB /\
  option_map (fun m => map m [20; 31; 32; 20 + 13; 20 + 11 + 7 * 13; 20 + 12 + 7 * 13])
    (k_run (M12x8_kernel Rev6 (zregs 32) 1 2) kx_dst 20 1 13
       (pk_block (kf_lhs M12x8_fmt) 6 naA) 100 (pk_block (kf_rhs M12x8_fmt) 6 naB) 100 16 6)
  = Some (map (fun x => Some x)
      [kx_old 13 0 0 + sumZ (fun d => naA 0 d * naB 0 d) 0 6; kx_old 13 11 0 + sumZ (fun d => naA 11 d * naB 0 d) 0 6; kx_old 13 12 0;
       kx_old 13 0 1 + sumZ (fun d => naA 0 d * naB 1 d) 0 6; kx_old 13 11 7 + sumZ (fun d => naA 11 d * naB 7 d) 0 6; kx_old 13 12 7]).
Proof.
  split; [apply (pk_holds (kf_lhs M12x8_fmt) 3 naA); try reflexivity; [discriminate|exact naA_byte]|].
  split; [apply (pk_holds (kf_rhs M12x8_fmt) 3 naB); try reflexivity; [discriminate|exact naB_byte]|].
  vm_compute. reflexivity.
Qed.
(* the int8 kernel does on entries that never multiply -128 by -128 *)
Theorem C66_msa_int8_kernel : forall m asm junk t0 t1, length junk = 32%nat ->
  kernel_correct_on (fun x y => x <> -128 \/ y <> -128) m (M4x4_kernel asm junk t0 t1).
Proof. exact M4x4_correct. Qed.
Print Assumptions C66_msa_int8_kernel.
(* 32 levels with column 0 of the rhs all -128 and products of both signs *)
Example C66_int8_example :
  holds_run (kf_lhs M4x4_fmt) (pk_block (kf_lhs M4x4_fmt) 32 siA) 100 32 siA /\
  holds_run (kf_rhs M4x4_fmt) (pk_block (kf_rhs M4x4_fmt) 32 siB) 100 32 siB /\
  (forall r c d, siA r d <> -128 \/ siB c d <> -128) /\ siB 0 5 = -128 /\ siA 0 3 < 0 < siA 0 4 /\
  option_map (fun m => map m [20; 23; 24; 20 + 13; 20 + 3 + 3 * 13])
    (k_run (M4x4_kernel Rev6 (zregs 32) 1 2) kx_dst 20 1 13
       (pk_block (kf_lhs M4x4_fmt) 32 siA) 100 (pk_block (kf_rhs M4x4_fmt) 32 siB) 100 16 32)
  = Some (map (fun x => Some x)
      [kx_old 13 0 0 + sumZ (fun d => siA 0 d * siB 0 d) 0 32; kx_old 13 3 0 + sumZ (fun d => siA 3 d * siB 0 d) 0 32; kx_old 13 4 0;
       kx_old 13 0 1 + sumZ (fun d => siA 0 d * siB 1 d) 0 32; kx_old 13 3 3 + sumZ (fun d => siA 3 d * siB 3 d) 0 32]).
Proof.
  split; [apply (pk_holds (kf_lhs M4x4_fmt) 2 siA); try reflexivity; [discriminate|exact siA_byte]|].
  split; [apply (pk_holds (kf_rhs M4x4_fmt) 2 siB); try reflexivity; [discriminate|exact siB_byte]|].
  split; [exact si_ok|]. split; [reflexivity|]. split; [vm_compute; split; reflexivity|]. vm_compute. reflexivity.
Qed.
(* the restriction is necessary *)
Theorem C66_msa_int8_any_pair_refuted : forall asm, exists junk t0 t1, length junk = 32%nat /\
  ~ kernel_correct Wrap (M4x4_kernel asm junk t0 t1).
Proof. exact M4x4_any_pair_refuted. Qed.
Print Assumptions C66_msa_int8_any_pair_refuted.

(* whole GEMMs *)
Theorem C66_gemm_msa :
  forall m asm junk t0 t1 t hw max_num_threads sc scs lhs rhs result lo ro p L R LO RO out before,
  length junk = 32%nat -> let K := M12x8_kernel asm junk t0 t1 in
  tuning_ok t -> threads_ok (k_fmt K) hw max_num_threads (Z.max (mm_rows result) (mm_cols result)) ->
  gemm_problem m K (op_mem lhs) (op_map lhs) (op_mem rhs) (op_map rhs) result lo ro p L R LO RO out ->
  valid_view before result ->
  exists phases, DispatchGemmShape m K t hw max_num_threads sc scs lhs rhs result lo ro p = Some phases /\
    (exists trace, execution phases trace) /\
    forall trace, execution phases trace ->
      exists after, perform trace before = Some after /\ stored before after result out.
Proof. exact gemm_msa. Qed.
Print Assumptions C66_gemm_msa.
Example C66_gemm_example :
  length (zregs 32) = 32%nat /\ tuning_ok (ex_tune 64 64) /\ threads_ok M12x8_fmt 4 3 4 /\
  gemm_problem Trap (M12x8_kernel Rev6 (zregs 32) 1 2) (op_mem ex_lhs) (op_map ex_lhs) (op_mem ex_rhs) (op_map ex_rhs) ex_result ex_lo ex_ro ex_pipe
    exL exR exLO exRO ex_out /\
  valid_view ex_before ex_result /\
  DispatchGemmShape Trap (M12x8_kernel Rev6 (zregs 32) 1 2) (ex_tune 64 64) 4 3 (ex_scratch 1) (fun c n => ex_scratch (c + n))
    ex_lhs ex_rhs ex_result ex_lo ex_ro ex_pipe
  = Some [[[(10, 81); (13, 255); (16, 0); (19, 0); (11, 40); (14, 255); (17, 137); (20, 0)]]].
Proof.
  split; [reflexivity|].
  destruct (ex_config_ok Trap ex_fmt1 64 64 4 3) as (_ & _ & _ & T & _); [auto|lia|lia|lia|].
  split; [exact T|]. split; [exact ex_threads_msa|]. split; [apply ex_problem; [cbn; lia|split; discriminate]|]. split; [exact ex_valid|].
  vm_compute. reflexivity.
Qed.

(* the int8 kernel, when no lhs byte is 0 (the packing subtracts 128) *)
Theorem C66_gemm_msa_lhs_nonzero :
  forall m asm junk t0 t1 t hw max_num_threads sc scs lhs rhs result lo ro p L R LO RO out before,
  length junk = 32%nat -> let K := M4x4_kernel asm junk t0 t1 in
  tuning_ok t -> threads_ok (k_fmt K) hw max_num_threads (Z.max (mm_rows result) (mm_cols result)) ->
  gemm_problem m K (op_mem lhs) (op_map lhs) (op_mem rhs) (op_map rhs) result lo ro p L R LO RO out ->
  (forall r d, 0 <= r < mm_rows result -> 0 <= d < mm_cols (op_map lhs) -> L r d <> 0) ->
  valid_view before result ->
  exists phases, DispatchGemmShape m K t hw max_num_threads sc scs lhs rhs result lo ro p = Some phases /\
    (exists trace, execution phases trace) /\
    forall trace, execution phases trace ->
      exists after, perform trace before = Some after /\ stored before after result out.
Proof. exact gemm_msa_int8. Qed.
Print Assumptions C66_gemm_msa_lhs_nonzero.
Example C66_gemm_int8_example :
  length (zregs 32) = 32%nat /\ tuning_ok (ex_tune 64 64) /\ threads_ok M4x4_fmt 4 3 4 /\
  gemm_problem Trap (M4x4_kernel Rev6 (zregs 32) 1 2) (op_mem ex_lhs) (op_map ex_lhs) (op_mem ex_rhs) (op_map ex_rhs) ex_result ex_lo ex_ro ex_pipe
    exL exR exLO exRO ex_out /\
  forallb (fun r => forallb (fun d => negb (exL r d =? 0)) [0; 1; 2]) [0; 1] = true /\
  valid_view ex_before ex_result /\
  DispatchGemmShape Trap (M4x4_kernel Rev6 (zregs 32) 1 2) (ex_tune 64 64) 4 3 (ex_scratch 1) (fun c n => ex_scratch (c + n))
    ex_lhs ex_rhs ex_result ex_lo ex_ro ex_pipe
  = Some [[[(10, 81); (13, 255); (16, 0); (19, 0); (11, 40); (14, 255); (17, 137); (20, 0)]]].
Proof.
  split; [reflexivity|].
  destruct (ex_config_ok Trap ex_fmt1 64 64 4 3) as (_ & _ & _ & T & _); [auto|lia|lia|lia|].
  split; [exact T|]. split; [exact ex_threads_msa8|]. split; [apply ex_problem; [cbn; lia|split; discriminate]|]. split; [reflexivity|]. split; [exact ex_valid|].
  vm_compute. reflexivity.
Qed.

(* the previous contents of the registers do not influence the result, and only
   run levels are read *)
Theorem C66_registers :
  forall asm junk t0 t1 junk' t0' t1' result dst cs lhs lp rhs rp start run A B old,
  length junk = 32%nat -> length junk' = 32%nat -> 0 < run -> (2 | run) ->
  (forall r c r' c', 0 <= r < 12 -> 0 <= c < 8 -> 0 <= r' < 12 -> 0 <= c' < 8 ->
     r * 1 + c * cs = r' * 1 + c' * cs -> r = r' /\ c = c') ->
  holds_run (kf_lhs M12x8_fmt) lhs lp run A -> holds_run (kf_rhs M12x8_fmt) rhs rp run B ->
  (forall r c, 0 <= r < 12 -> 0 <= c < 8 -> result (dst + (r * 1 + c * cs)) = Some (old r c)) ->
  exists r1 r2, k_run (M12x8_kernel asm junk t0 t1) result dst 1 cs lhs lp rhs rp start run = Some r1 /\
    k_run (M12x8_kernel asm junk' t0' t1') result dst 1 cs lhs lp rhs rp start run = Some r2 /\ forall a, r1 a = r2 a.
Proof. exact M12x8_junk. Qed.
Print Assumptions C66_registers.
Theorem C66_int8_registers :
  forall asm junk t0 t1 junk' t0' t1' result dst cs lhs lp rhs rp start run A B old,
  length junk = 32%nat -> length junk' = 32%nat -> 0 < run -> (16 | run) ->
  (forall r c r' c', 0 <= r < 4 -> 0 <= c < 4 -> 0 <= r' < 4 -> 0 <= c' < 4 ->
     r * 1 + c * cs = r' * 1 + c' * cs -> r = r' /\ c = c') ->
  holds_run (kf_lhs M4x4_fmt) lhs lp run A -> holds_run (kf_rhs M4x4_fmt) rhs rp run B ->
  (forall r c, 0 <= r < 4 -> 0 <= c < 4 -> result (dst + (r * 1 + c * cs)) = Some (old r c)) ->
  exists r1 r2, k_run (M4x4_kernel asm junk t0 t1) result dst 1 cs lhs lp rhs rp start run = Some r1 /\
    k_run (M4x4_kernel asm junk' t0' t1') result dst 1 cs lhs lp rhs rp start run = Some r2 /\ forall a, r1 a = r2 a.
Proof. exact M4x4_junk. Qed.
Print Assumptions C66_int8_registers.
(* hypotheses met by blocks of exactly 16 levels, with two different register files *)
Example C66_registers_example :
  holds_run (kf_lhs M4x4_fmt) (pk_block (kf_lhs M4x4_fmt) 16 minus) 100 16 minus /\
  holds_run (kf_rhs M4x4_fmt) (pk_block (kf_rhs M4x4_fmt) 16 minus) 100 16 minus /\
  pk_block (kf_lhs M4x4_fmt) 16 minus (100 + 4 * 16) = None /\
  zregs 32 <> map (fun _ => 0) (zregs 32) /\
  option_map (fun m => m 20) (k_run (M4x4_kernel Rev6 (map (fun _ => 0) (zregs 32)) 7 8) kx_dst 20 1 13
      (pk_block (kf_lhs M4x4_fmt) 16 minus) 100 (pk_block (kf_rhs M4x4_fmt) 16 minus) 100 0 16) =
  option_map (fun m => m 20) (k_run (M4x4_kernel Rev6 (zregs 32) 1 2) kx_dst 20 1 13
      (pk_block (kf_lhs M4x4_fmt) 16 minus) 100 (pk_block (kf_rhs M4x4_fmt) 16 minus) 100 0 16).
Proof.
  split; [apply (pk_holds (kf_lhs M4x4_fmt) 1 minus); try reflexivity; discriminate|].
  split; [apply (pk_holds (kf_rhs M4x4_fmt) 1 minus); try reflexivity; discriminate|].
  split; [reflexivity|]. split; [vm_compute; discriminate|]. vm_compute. reflexivity.
Qed.
