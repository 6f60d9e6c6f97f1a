(* Props_Kernels.v: property theorems C53-C55, about the inline assembly of
   internal/kernel_sse.h and kernel_avx.h.  X86Model.v gives the instructions,
   X86Kernels.v the programs; junk, t0, t1, t2, fl are the previous contents of
   the vector registers, scratch registers and flags. *)
From Verif Require Import Base CommonModel PackModel GemmSpec ComputeModel KernelSpec KernelProofs
  OutputModel OutputSpec UnpackModel GemmModel GemmContract GemmProofs4 GemmExample
  SimdModel X86Model X86Kernels X86Loop X86Contract X86Example X86Refuted.

(* C53: the SSE4 kernels meet the contract that the GEMM theorems require of a kernel *)
Theorem C53_sse4_64_kernel : forall m junk t0 t1 t2 fl, length junk = 16%nat ->
  kernel_correct m (SSE64_kernel junk t0 t1 t2 fl).
Proof. exact SSE64_correct. Qed.
Print Assumptions C53_sse4_64_kernel.
Theorem C53_sse4_32_kernel : forall m junk t0 t1 t2 fl, length junk = 8%nat ->
  kernel_correct m (SSE32_kernel junk t0 t1 t2 fl).
Proof. exact SSE32_correct. Qed.
Print Assumptions C53_sse4_32_kernel.

(* depth 6 packed with zeros up to 16, old values kept (start_depth = 16) *)
Example C53_example :
  holds_run (kf_lhs SSE64_fmt) (kx_block 4 12 16 kxA) 100 (RoundUp 16 6) kxA /\
  holds_run (kf_rhs SSE64_fmt) (kx_block 4 4 16 kxB) 100 (RoundUp 16 6) kxB /\
  (forall r c, 0 <= r < 12 -> 0 <= c < 4 -> kx_dst (20 + (r * 1 + c * 13)) = Some (kx_old 13 r c)) /\
  option_map (fun m => map m [20; 21; 31; 32; 20 + 13; 20 + 11 + 3 * 13; 72])
    (k_run (SSE64_kernel (zregs 16) 1 2 3 fl0) kx_dst 20 1 13 (kx_block 4 12 16 kxA) 100 (kx_block 4 4 16 kxB) 100 16 6)
  = Some (map (fun x => Some x)
      [kx_old 13 0 0 + sumZ (fun d => kxA 0 d * kxB 0 d) 0 6; kx_old 13 1 0 + sumZ (fun d => kxA 1 d * kxB 0 d) 0 6;
       kx_old 13 11 0 + sumZ (fun d => kxA 11 d * kxB 0 d) 0 6; 32 * 1000 - 7;
       kx_old 13 0 1 + sumZ (fun d => kxA 0 d * kxB 1 d) 0 6; kx_old 13 11 3 + sumZ (fun d => kxA 11 d * kxB 3 d) 0 6; 72 * 1000 - 7]).
Proof.
  split; [apply (kx_holds 4 3 16 kxA); [lia|lia|exists 8; reflexivity|exact kxA_byte]|].
  split; [apply (kx_holds 4 1 16 kxB); [lia|lia|exists 8; reflexivity|exact kxB_byte]|].
  split; [intros r c Hr Hc; apply (kx_dst_ok 12 13); lia|]. vm_compute. reflexivity.
Qed.
Example C53_example_32 :
  option_map (fun m => map m [20; 23; 24; 20 + 13; 20 + 3 + 3 * 13])
    (k_run (SSE32_kernel (zregs 8) 1 2 3 fl0) kx_dst 20 1 13 (kx_block 4 4 16 kxA) 100 (kx_block 4 4 16 kxB) 100 0 6)
  = Some (map (fun x => Some x)
      [sumZ (fun d => kxA 0 d * kxB 0 d) 0 6; sumZ (fun d => kxA 3 d * kxB 0 d) 0 6; 24 * 1000 - 7;
       sumZ (fun d => kxA 0 d * kxB 1 d) 0 6; sumZ (fun d => kxA 3 d * kxB 3 d) 0 6]).
Proof. vm_compute. reflexivity. Qed.

(* what a whole GEMM on the 64-bit SSE4 kernel stores *)
Theorem C53_gemm_sse4 :
  forall m junk t0 t1 t2 fl t hw max_num_threads sc scs lhs rhs result lo ro p L R LO RO out before,
  let K := SSE64_kernel junk t0 t1 t2 fl in
  length junk = 16%nat ->
  tuning_ok t -> threads_ok SSE64_fmt hw max_num_threads (Z.max (mm_rows result) (mm_cols result)) ->
  gemm_problem m K (op_mem lhs) (op_map lhs) (op_mem rhs) (op_map rhs) result lo ro p L R LO RO out ->
  valid_view before result ->
  exists phases, DispatchGemmShape m K t hw max_num_threads sc scs lhs rhs result lo ro p = Some phases /\
    (exists trace, execution phases trace) /\
    forall trace, execution phases trace ->
      exists after, perform trace before = Some after /\ stored before after result out.
Proof. exact gemm_sse4. Qed.
Print Assumptions C53_gemm_sse4.
Example C53_gemm_example :
  tuning_ok (ex_tune 64 64) /\ threads_ok SSE64_fmt 4 3 4 /\
  gemm_problem Trap (SSE64_kernel (zregs 16) 1 2 3 fl0) (op_mem ex_lhs) (op_map ex_lhs) (op_mem ex_rhs) (op_map ex_rhs) ex_result ex_lo ex_ro ex_pipe
    exL exR exLO exRO ex_out /\
  valid_view ex_before ex_result /\
  DispatchGemmShape Trap (SSE64_kernel (zregs 16) 1 2 3 fl0) (ex_tune 64 64) 4 3 (ex_scratch 1) (fun c n => ex_scratch (c + n))
    ex_lhs ex_rhs ex_result ex_lo ex_ro ex_pipe
  = Some [[[(10, 81); (13, 255); (16, 0); (19, 0); (11, 40); (14, 255); (17, 137); (20, 0)]]].
Proof.
  destruct (ex_config_ok Trap ex_fmt1 64 64 4 3) as (_ & _ & _ & T & _); [auto|lia|lia|lia|].
  split; [exact T|]. split; [exact ex_threads_sse|]. split; [apply ex_problem; [cbn; lia|split; discriminate]|]. split; [exact ex_valid|].
  vm_compute. reflexivity.
Qed.

(* C54: the previous contents of registers and flags do not influence the result *)
Theorem C54_sse4_64_registers :
  forall junk t0 t1 t2 fl junk' t0' t1' t2' fl' result dst cs lhs lp rhs rp start M A B old,
  length junk = 16%nat -> length junk' = 16%nat -> 1 <= M ->
  (forall r c r' c', 0 <= r < 12 -> 0 <= c < 4 -> 0 <= r' < 12 -> 0 <= c' < 4 ->
     r * 1 + c * cs = r' * 1 + c' * cs -> r = r' /\ c = c') ->
  holds_run (kf_lhs SSE64_fmt) lhs lp (levels M) A -> holds_run (kf_rhs SSE64_fmt) rhs rp (levels M) B ->
  (forall r c, 0 <= r < 12 -> 0 <= c < 4 -> result (dst + (r * 1 + c * cs)) = Some (old r c)) ->
  exists r1 r2, k_run (SSE64_kernel junk t0 t1 t2 fl) result dst 1 cs lhs lp rhs rp start (M * 2) = Some r1 /\
    k_run (SSE64_kernel junk' t0' t1' t2' fl') result dst 1 cs lhs lp rhs rp start (M * 2) = Some r2 /\ forall a, r1 a = r2 a.
Proof. exact SSE64_junk. Qed.
Print Assumptions C54_sse4_64_registers.
Theorem C54_sse4_32_registers :
  forall junk t0 t1 t2 fl junk' t0' t1' t2' fl' result dst cs lhs lp rhs rp start M A B old,
  length junk = 8%nat -> length junk' = 8%nat -> 1 <= M ->
  (forall r c r' c', 0 <= r < 4 -> 0 <= c < 4 -> 0 <= r' < 4 -> 0 <= c' < 4 ->
     r * 1 + c * cs = r' * 1 + c' * cs -> r = r' /\ c = c') ->
  holds_run (kf_lhs SSE32_fmt) lhs lp (levels M) A -> holds_run (kf_rhs SSE32_fmt) rhs rp (levels M) B ->
  (forall r c, 0 <= r < 4 -> 0 <= c < 4 -> result (dst + (r * 1 + c * cs)) = Some (old r c)) ->
  exists r1 r2, k_run (SSE32_kernel junk t0 t1 t2 fl) result dst 1 cs lhs lp rhs rp start (M * 2) = Some r1 /\
    k_run (SSE32_kernel junk' t0' t1' t2' fl') result dst 1 cs lhs lp rhs rp start (M * 2) = Some r2 /\ forall a, r1 a = r2 a.
Proof. exact SSE32_junk. Qed.
Print Assumptions C54_sse4_32_registers.
Theorem C54_avx2_registers :
  forall junk t0 t1 t2 fl junk' t0' t1' t2' fl' result dst cs lhs lp rhs rp start M A B old,
  length junk = 16%nat -> length junk' = 16%nat -> 1 <= M ->
  (forall r c r' c', 0 <= r < 24 -> 0 <= c < 4 -> 0 <= r' < 24 -> 0 <= c' < 4 ->
     r * 1 + c * cs = r' * 1 + c' * cs -> r = r' /\ c = c') ->
  holds_run (kf_lhs AVX2_fmt) lhs lp (RoundUp 32 (M * 2)) A -> holds_run (kf_rhs AVX2_fmt) rhs rp (RoundUp 32 (M * 2)) B ->
  readable rhs rp (4 * RoundUp 32 (M * 2) + 8) ->
  (forall r c, 0 <= r < 24 -> 0 <= c < 4 -> result (dst + (r * 1 + c * cs)) = Some (old r c)) ->
  exists r1 r2, k_run (AVX2_kernel junk t0 t1 t2 fl) result dst 1 cs lhs lp rhs rp start (M * 2) = Some r1 /\
    k_run (AVX2_kernel junk' t0' t1' t2' fl') result dst 1 cs lhs lp rhs rp start (M * 2) = Some r2 /\ forall a, r1 a = r2 a.
Proof. exact AVX2_junk. Qed.
Print Assumptions C54_avx2_registers.
(* depth 6 needs 8 levels: hypotheses met with a block of exactly 8 *)
Example C54_example :
  levels 3 = 8 /\ holds_run (kf_lhs SSE64_fmt) (kx_block 4 12 8 kxA1) 100 (levels 3) kxA1 /\
  holds_run (kf_rhs SSE64_fmt) (kx_block 4 4 8 kxB1) 100 (levels 3) kxB1 /\ zregs 16 <> map (fun _ => 0) (zregs 16).
Proof.
  split; [reflexivity|]. split; [apply (kx_holds 4 3 8 kxA1); [lia|lia|exists 4; reflexivity|exact kxA1_byte]|].
  split; [apply (kx_holds 4 1 8 kxB1); [lia|lia|exists 4; reflexivity|exact kxB1_byte]|]. vm_compute. discriminate.
Qed.

(* C55: the AVX2 kernel computes the product when 8 more bytes are readable
   behind the packed rhs *)
Theorem C55_avx2_kernel : forall junk t0 t1 t2 fl, length junk = 16%nat ->
  forall result dst cs lhs lp rhs rp start run A B old,
    0 <= start -> 0 < run -> (2 | run) ->
    (forall r c r' c', 0 <= r < 24 -> 0 <= c < 4 -> 0 <= r' < 24 -> 0 <= c' < 4 ->
       r * 1 + c * cs = r' * 1 + c' * cs -> r = r' /\ c = c') ->
    holds_run (kf_lhs AVX2_fmt) lhs lp (RoundUp 32 run) A ->
    holds_run (kf_rhs AVX2_fmt) rhs rp (RoundUp 32 run) B ->
    readable rhs rp (4 * RoundUp 32 run + 8) ->
    (forall r c, 0 <= r < 24 -> 0 <= c < 4 -> result (dst + (r * 1 + c * cs)) = Some (old r c)) ->
    exists result',
      k_run (AVX2_kernel junk t0 t1 t2 fl) result dst 1 cs lhs lp rhs rp start run = Some result' /\
      (forall r c, 0 <= r < 24 -> 0 <= c < 4 ->
         (forall d, run <= d < RoundUp 32 run -> A r d = 0 /\ B c d = 0) ->
         result' (dst + (r * 1 + c * cs)) =
           Some (wrapS 32 ((if start =? 0 then 0 else old r c) + sumZ (fun d => A r d * B c d) 0 run))) /\
      (forall a, (forall r c, 0 <= r < 24 -> 0 <= c < 4 -> a <> dst + (r * 1 + c * cs)) ->
         result' a = result a).
Proof. exact AVX2_correct. Qed.
Print Assumptions C55_avx2_kernel.
Example C55_example :
  holds_run (kf_lhs AVX2_fmt) (kx_block 8 24 32 kxA) 100 (RoundUp 32 6) kxA /\
  holds_run (kf_rhs AVX2_fmt) (kx_block 4 4 34 kxB) 100 (RoundUp 32 6) kxB /\
  readable (kx_block 4 4 34 kxB) 100 (4 * RoundUp 32 6 + 8) /\
  option_map (fun m => map m [20; 43; 44; 20 + 30; 20 + 23 + 3 * 30])
    (k_run (AVX2_kernel (zregs 16) 1 2 3 fl0) kx_dst 20 1 30 (kx_block 8 24 32 kxA) 100 (kx_block 4 4 34 kxB) 100 0 6)
  = Some (map (fun x => Some x)
      [sumZ (fun d => kxA 0 d * kxB 0 d) 0 6; sumZ (fun d => kxA 23 d * kxB 0 d) 0 6; 44 * 1000 - 7;
       sumZ (fun d => kxA 0 d * kxB 1 d) 0 6; sumZ (fun d => kxA 23 d * kxB 3 d) 0 6]).
Proof.
  split; [apply (kx_holds 8 3 32 kxA); [lia|lia|exists 16; reflexivity|exact kxA_byte]|].
  split; [apply kxB34|]. split; [exact kxB34_readable|]. vm_compute. reflexivity.
Qed.
(* the same for the 8 bytes behind the packed rhs, in the contract that the GEMM
   theorems ask of a kernel *)
Theorem C55_avx2_behind : forall m junk t0 t1 t2 fl, length junk = 16%nat ->
  kernel_correct_behind 8 (fun _ _ => True) m (AVX2_kernel junk t0 t1 t2 fl).
Proof. exact AVX2_behind. Qed.
Print Assumptions C55_avx2_behind.
(* what a whole GEMM on the AVX2 kernel stores: behind the packed bytes are the sums, which
   the kernel reads but does not use *)
Theorem C55_gemm_avx2 :
  forall m junk t0 t1 t2 fl t hw max_num_threads sc scs lhs rhs result lo ro p L R LO RO out before,
  let K := AVX2_kernel junk t0 t1 t2 fl in
  length junk = 16%nat ->
  tuning_ok t -> threads_ok AVX2_fmt hw max_num_threads (Z.max (mm_rows result) (mm_cols result)) ->
  gemm_problem m K (op_mem lhs) (op_map lhs) (op_mem rhs) (op_map rhs) result lo ro p L R LO RO out ->
  valid_view before result ->
  exists phases, DispatchGemmShape m K t hw max_num_threads sc scs lhs rhs result lo ro p = Some phases /\
    (exists trace, execution phases trace) /\
    forall trace, execution phases trace ->
      exists after, perform trace before = Some after /\ stored before after result out.
Proof. exact gemm_avx2. Qed.
Print Assumptions C55_gemm_avx2.
Example C55_gemm_example :
  tuning_ok (ex_tune 64 64) /\ threads_ok AVX2_fmt 4 3 4 /\
  gemm_problem Trap (AVX2_kernel (zregs 16) 1 2 3 fl0) (op_mem ex_lhs) (op_map ex_lhs) (op_mem ex_rhs) (op_map ex_rhs) ex_result ex_lo ex_ro ex_pipe
    exL exR exLO exRO ex_out /\
  valid_view ex_before ex_result /\
  DispatchGemmShape Trap (AVX2_kernel (zregs 16) 1 2 3 fl0) (ex_tune 64 64) 4 3 (ex_scratch 1) (fun c n => ex_scratch (c + n))
    ex_lhs ex_rhs ex_result ex_lo ex_ro ex_pipe
  = Some [[[(10, 81); (13, 255); (16, 0); (19, 0); (11, 40); (14, 255); (17, 137); (20, 0)]]].
Proof.
  destruct (ex_config_ok Trap ex_fmt1 64 64 4 3) as (_ & _ & _ & T & _); [auto|lia|lia|lia|].
  split; [exact T|]. split; [exact ex_threads_avx|]. split; [apply ex_problem; [cbn; lia|split; discriminate]|]. split; [exact ex_valid|].
  vm_compute. reflexivity.
Qed.

(* without them it reads outside the packed block: the contract of the other
   kernels fails *)
Theorem C55_avx2_tight_refuted : exists junk t0 t1 t2 fl, length junk = 16%nat /\
  ~ kernel_correct Wrap (AVX2_kernel junk t0 t1 t2 fl).
Proof. exact AVX2_tight_refuted. Qed.
Print Assumptions C55_avx2_tight_refuted.
(* and no kernel of the three is correct when the block stops at run_depth: for
   an odd number of cells the two-cell loop reads one cell more, and adds it *)
Theorem C53_sse4_unpadded_refuted : exists result dst cs lhs lp rhs rp run A B,
  holds_run (kf_lhs SSE64_fmt) lhs lp run A /\ holds_run (kf_rhs SSE64_fmt) rhs rp run B /\ (2 | run) /\ 0 < run /\
  exists result' v, k_run (SSE64_kernel (zregs 16) 0 0 0 fl0) result dst 1 cs lhs lp rhs rp 0 run = Some result' /\
    result' dst = Some v /\ v <> wrapS 32 (sumZ (fun d => A 0 d * B 0 d) 0 run).
Proof. exact SSE64_unpadded_refuted. Qed.
Print Assumptions C53_sse4_unpadded_refuted.
Theorem C53_sse4_overread_refuted : exists result dst cs lhs lp rhs rp run A B,
  holds_run (kf_lhs SSE64_fmt) lhs lp run A /\ holds_run (kf_rhs SSE64_fmt) rhs rp run B /\ (2 | run) /\ 0 < run /\
  (forall r c, 0 <= r < 12 -> 0 <= c < 4 -> exists v, result (dst + (r * 1 + c * cs)) = Some v) /\
  k_run (SSE64_kernel (zregs 16) 0 0 0 fl0) result dst 1 cs lhs lp rhs rp 0 run = None.
Proof. exact SSE64_overread_refuted. Qed.
Print Assumptions C53_sse4_overread_refuted.
