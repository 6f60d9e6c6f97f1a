(* Props_Select.v: property theorems C58 (the NEON kernel for 12-bit products),
   C57 for that kernel, and C59 (the choice of the kernel from the operand ranges). *)
From Verif Require Import Base CommonModel PackModel GemmSpec ComputeModel KernelSpec OutputModel OutputSpec UnpackModel
  GemmModel GemmContract GemmProofs4 GemmExample SimdModel X86Model X86Example ArmModel ArmKernels ArmContract ArmExample Bits12Contract MsaContract
  SelectModel SelectContract SelectProofs.

(* C58: on entries whose products are below 4096 the kernel meets the contract *)
Theorem C58_bits12_kernel : forall m junk t0 t1 fl loc, length junk = 16%nat -> loc_ok loc ->
  kernel_correct_on (fun x y => x * y < 4096) m (N12b_kernel junk t0 t1 fl loc).
Proof. exact N12b_correct. Qed.
Print Assumptions C58_bits12_kernel.
(* 38 levels: one round of 32 through the 16-bit sums and a rest of 6 *)
Example C58_example :
  length (zregs 16) = 16%nat /\ loc_ok loc0 /\ (forall r c d, b6A r d * b6B c d < 4096) /\
  holds_run (kf_lhs N12b_fmt) (pk_block (kf_lhs N12b_fmt) 38 b6A) 100 38 b6A /\
  holds_run (kf_rhs N12b_fmt) (pk_block (kf_rhs N12b_fmt) 38 b6B) 100 38 b6B /\
  option_map (fun m => map m [20; 31; 32; 20 + 13; 20 + 11 + 3 * 13])
    (k_run (N12b_kernel (zregs 16) 1 2 afl0 loc0) kx_dst 20 1 13
       (pk_block (kf_lhs N12b_fmt) 38 b6A) 100 (pk_block (kf_rhs N12b_fmt) 38 b6B) 100 16 38)
  = Some (map (fun x => Some x)
      [kx_old 13 0 0 + sumZ (fun d => b6A 0 d * b6B 0 d) 0 38; kx_old 13 11 0 + sumZ (fun d => b6A 11 d * b6B 0 d) 0 38; kx_old 13 12 0;
       kx_old 13 0 1 + sumZ (fun d => b6A 0 d * b6B 1 d) 0 38; kx_old 13 11 3 + sumZ (fun d => b6A 11 d * b6B 3 d) 0 38]).
Proof.
  split; [reflexivity|]. split; [exact loc0_ok|]. split; [exact b6_ok|].
  split; [apply (pk_holds (kf_lhs N12b_fmt) 19 b6A); try reflexivity; [discriminate|exact b6A_byte]|].
  split; [apply (pk_holds (kf_rhs N12b_fmt) 19 b6B); try reflexivity; [discriminate|exact b6B_byte]|].
  vm_compute. reflexivity.
Qed.
(* the bound is sharp: products of 4096 are too large *)
Theorem C58_bound_refuted : exists junk t0 t1 fl loc, length junk = 16%nat /\ loc_ok loc /\
  ~ kernel_correct_on (fun x y => x * y <= 4096) Wrap (N12b_kernel junk t0 t1 fl loc).
Proof. exact N12b_any_pair_refuted. Qed.
Print Assumptions C58_bound_refuted.
Theorem C58_gemm_bits12 :
  forall m junk t0 t1 fl loc t hw max_num_threads sc scs lhs rhs result lo ro p L R LO RO out before,
  length junk = 16%nat -> loc_ok loc ->
  tuning_ok t -> threads_ok N12b_fmt hw max_num_threads (Z.max (mm_rows result) (mm_cols result)) ->
  gemm_problem m (N12b_kernel junk t0 t1 fl loc) (op_mem lhs) (op_map lhs) (op_mem rhs) (op_map rhs) result lo ro p L R LO RO out ->
  (forall r c d, 0 <= r < mm_rows result -> 0 <= c < mm_cols result -> 0 <= d < mm_cols (op_map lhs) -> L r d * R d c < 4096) ->
  valid_view before result ->
  exists phases, DispatchGemmShape m (N12b_kernel junk t0 t1 fl loc) t hw max_num_threads sc scs lhs rhs result lo ro p = Some phases /\
    (exists trace, execution phases trace) /\
    forall trace, execution phases trace ->
      exists after, perform trace before = Some after /\ stored before after result out.
Proof. exact gemm_bits12. Qed.
Print Assumptions C58_gemm_bits12.
Example C58_gemm_example :
  tuning_ok (ex_tune 64 64) /\ threads_ok N12b_fmt 4 3 4 /\
  gemm_problem Trap (N12b_kernel (zregs 16) 1 2 afl0 loc0) (op_mem sx_lhs) (op_map sx_lhs) (op_mem sx_rhs) (op_map sx_rhs) ex_result ex_lo ex_ro sx_pipe
    sxL sxR exLO exRO sx_out /\
  (forall r c d, sxL r d * sxR d c < 4096) /\ valid_view ex_before ex_result /\
  DispatchGemmShape Trap (N12b_kernel (zregs 16) 1 2 afl0 loc0) (ex_tune 64 64) 4 3 (ex_scratch 1) (fun c n => ex_scratch (c + n))
    sx_lhs sx_rhs ex_result ex_lo ex_ro sx_pipe
  = Some [[[(10, 255); (13, 255); (16, 255); (19, 255); (11, 67); (14, 37); (17, 68); (20, 38)]]].
Proof.
  split; [apply ex_tune_ok; lia|]. split; [exact ex_threads_bits12|]. split; [apply sx_problem; [cbn; lia|split; discriminate]|]. split; [exact sx_product|].
  split; [exact ex_valid|]. vm_compute. reflexivity.
Qed.
(* C57 for this kernel *)
Theorem C57_bits12_registers :
  forall junk t0 t1 fl loc junk' t0' t1' fl' loc' result dst cs lhs lp rhs rp start run A B old,
  length junk = 16%nat -> length junk' = 16%nat -> loc_ok loc -> loc_ok loc' -> 0 < run -> (2 | run) ->
  (forall r c r' c', 0 <= r < 12 -> 0 <= c < 4 -> 0 <= r' < 12 -> 0 <= c' < 4 ->
     r * 1 + c * cs = r' * 1 + c' * cs -> r = r' /\ c = c') ->
  holds_run (kf_lhs N12b_fmt) lhs lp run A -> holds_run (kf_rhs N12b_fmt) rhs rp run B ->
  (forall r c d, 0 <= r < 12 -> 0 <= c < 4 -> 0 <= d < run -> A r d * B c d < 4096) ->
  (forall r c, 0 <= r < 12 -> 0 <= c < 4 -> result (dst + (r * 1 + c * cs)) = Some (old r c)) ->
  exists r1 r2, k_run (N12b_kernel junk t0 t1 fl loc) result dst 1 cs lhs lp rhs rp start run = Some r1 /\
    k_run (N12b_kernel junk' t0' t1' fl' loc') result dst 1 cs lhs lp rhs rp start run = Some r2 /\ forall a, r1 a = r2 a.
Proof. exact N12b_junk. Qed.
Print Assumptions C57_bits12_registers.
Example C57_bits12_example :
  holds_run (kf_lhs N12b_fmt) (pk_block (kf_lhs N12b_fmt) 6 b6A) 100 6 b6A /\
  pk_block (kf_lhs N12b_fmt) 6 b6A (100 + 12 * 6) = None /\ zregs 16 <> map (fun _ => 0) (zregs 16) /\
  option_map (fun m => map m [20; 33]) (k_run (N12b_kernel (map (fun _ => 0) (zregs 16)) 7 8 (mk_af false true) (fun _ => Some 77)) kx_dst 20 1 13
      (pk_block (kf_lhs N12b_fmt) 6 b6A) 100 (pk_block (kf_rhs N12b_fmt) 6 b6B) 100 0 6) =
  option_map (fun m => map m [20; 33]) (k_run (N12b_kernel (zregs 16) 1 2 afl0 loc0) kx_dst 20 1 13
      (pk_block (kf_lhs N12b_fmt) 6 b6A) 100 (pk_block (kf_rhs N12b_fmt) 6 b6B) 100 0 6) /\
  option_map (fun m => m 20) (k_run (N12b_kernel (zregs 16) 1 2 afl0 loc0) kx_dst 20 1 13
      (pk_block (kf_lhs N12b_fmt) 6 b6A) 100 (pk_block (kf_rhs N12b_fmt) 6 b6B) 100 0 6) = Some (Some (sumZ (fun d => b6A 0 d * b6B 0 d) 0 6)).
Proof.
  split; [apply (pk_holds (kf_lhs N12b_fmt) 3 b6A); try reflexivity; [discriminate|exact b6A_byte]|].
  split; [reflexivity|]. split; [vm_compute; discriminate|]. split; vm_compute; reflexivity.
Qed.

(* C59: for unsigned operand ranges, whether a kernel is chosen at all *)
Theorem C59_choice_exists : forall p l r, 0 <= or_min l ->
  (DefaultKernel p l r <> None <-> ~ (or_max l * or_max r < 4096 /\ (0 < or_min l \/ or_max l <= 127))).
Proof. exact selected_iff. Qed.
Print Assumptions C59_choice_exists.
(* so these ranges, although legal, compile on no target *)
Theorem C59_small_ranges_refuted : exists l r, range_ok l /\ range_ok r /\ 0 <= or_min l /\ 0 <= or_min r /\
  or_max l <= 255 /\ or_max r <= 255 /\ forall p, DefaultKernel p l r = None.
Proof. exact small_ranges_refuted. Qed.
Print Assumptions C59_small_ranges_refuted.
(* the parameters of bit_depth.h all have a kernel *)
Example C59_presets : forall p,
  DefaultKernel p Uint8Range Uint8Range <> None /\ DefaultKernel p Uint8RangeExcludingZero Uint8Range <> None /\
  DefaultKernel Neon32 Int8RangeExcludingLow Int8Range = Some K_NEON_32bit_Int8_Int8Inputs /\
  DefaultKernel Sse4_64 Int8RangeExcludingLow Int8Range = None /\
  DefaultKernel Neon32 (mk_range 0 130) (mk_range 0 31) = Some K_NEON_32_Kernel12x4Depth2Assuming12BitProducts /\
  DefaultKernel (Neon64 true) (mk_range 0 130) (mk_range 0 31) = Some K_NEON_64_Kernel12x8Depth4_dotprod.
Proof. intros [|[]| | | | |]; repeat split; discriminate. Qed.
(* the chosen kernel serves its ranges, exactly when an int8 kernel is not
   chosen for an lhs range from 0 to at most 127 with a rhs that may be 0 *)
Theorem C59_choice_serves : forall m p l r name,
  range_ok l -> range_ok r -> 0 <= or_min l -> 0 <= or_min r ->
  DefaultKernel p l r = Some name ->
  ((forall K, is_kernel m name K ->
      forall t hw max_num_threads sc scs lhs rhs result lo ro pipe L R LO RO out before,
      tuning_ok t -> threads_ok (k_fmt K) hw max_num_threads (Z.max (mm_rows result) (mm_cols result)) ->
      gemm_problem m K (op_mem lhs) (op_map lhs) (op_mem rhs) (op_map rhs) result lo ro pipe L R LO RO out ->
      within l (mm_rows result) (mm_cols (op_map lhs)) L -> within r (mm_cols (op_map lhs)) (mm_cols result) R ->
      valid_view before result ->
      exists phases, DispatchGemmShape m K t hw max_num_threads sc scs lhs rhs result lo ro pipe = Some phases /\
        (exists trace, execution phases trace) /\
        forall trace, execution phases trace ->
          exists after, perform trace before = Some after /\ stored before after result out) <->
   (p = Neon32 \/ p = Neon64 false \/ p = Msa ->
    or_max l * or_max r < 4096 \/ 0 < or_min l \/ 127 < or_max l \/ 0 < or_min r)).
Proof. exact served_iff. Qed.
Print Assumptions C59_choice_serves.
(* and such a kernel is modelled *)
Theorem C59_choice_modelled : forall m p l r name,
  0 <= or_min l -> DefaultKernel p l r = Some name -> exists K, is_kernel m name K.
Proof. exact selected_modelled. Qed.
Print Assumptions C59_choice_modelled.
(* the failing case: [0,127] x [0,255] takes the kernel for nonzero lhs, and a
   product of zero matrices gives -524288 *)
Theorem C59_low_range_refuted : exists p l r name K, range_ok l /\ range_ok r /\ 0 <= or_min l /\ 0 <= or_min r /\
  or_max l <= 255 /\ or_max r <= 255 /\
  DefaultKernel p l r = Some name /\ is_kernel Trap name K /\ ~ serves Trap K l r.
Proof. exact low_range_refuted. Qed.
Print Assumptions C59_low_range_refuted.
Example C59_example :
  range_ok (mk_range 0 130) /\ range_ok (mk_range 0 31) /\
  is_kernel Trap K_NEON_32_Kernel12x4Depth2Assuming12BitProducts (N12b_kernel (zregs 16) 1 2 afl0 loc0) /\
  within (mk_range 0 130) 2 3 sxL /\
  z_result_00 Trap (N4x4_kernel (zregs 32) 1 2 afl0 loc0) = Some (-524288) /\
  z_result_00 Trap (N12x8_kernel (zregs 32) 1 2 afl0 loc0) = Some 0 /\
  DefaultKernel Msa (mk_range 0 127) Uint8Range = Some K_MSA_Int8 /\
  is_kernel Trap K_MSA_Int8 (M4x4_kernel Rev6 (zregs 32) 1 2) /\
  z_result_00 Trap (M4x4_kernel Rev6 (zregs 32) 1 2) = Some (-524288).
Proof.
  split; [reflexivity|]. split; [reflexivity|]. split; [constructor; [reflexivity|exact loc0_ok]|].
  split; [intros i j _ _; cbn; unfold sxL; pose proof (Z.mod_pos_bound (exL i j) 64 ltac:(lia)); lia|].
  split; [vm_compute; reflexivity|]. split; [vm_compute; reflexivity|]. split; [reflexivity|]. split; [now constructor|]. vm_compute; reflexivity.
Qed.
