(* X86Refuted.v: what the x86 kernels do outside their contract; the GEMM on SSE4 and AVX2 *)
From Verif Require Import Base BaseLemmas CommonModel PackModel GemmSpec ComputeModel KernelSpec KernelProofs OutputModel OutputSpec UnpackModel
  GemmModel GemmContract GemmProofs4 GemmExample SimdModel X86Model X86Kernels X86Contract X86Example.

Lemma gemm_sse4 m junk t0 t1 t2 fl t hw max_num_threads sc scs lhs rhs result lo ro p L R LO RO out before :
  let K := SSE64_kernel junk t0 t1 t2 fl in
  length junk = 16%nat ->
  tuning_ok t -> threads_ok SSE64_fmt hw max_num_threads (Z.max (mm_rows result) (mm_cols result)) ->
  gemm_problem m K (op_mem lhs) (op_map lhs) (op_mem rhs) (op_map rhs) result lo ro p L R LO RO out ->
  valid_view before result ->
  exists phases, DispatchGemmShape m K t hw max_num_threads sc scs lhs rhs result lo ro p = Some phases /\
    (exists trace, execution phases trace) /\
    forall trace, execution phases trace ->
      exists after, perform trace before = Some after /\ stored before after result out.
Proof.
  intros K Hj Ht Hth HP Hv. apply (gemm_correct m K) with (L := L) (R := R) (LO := LO) (RO := RO); try assumption.
  split; [exact SSE64_fmt_ok|]. split; [apply correct_usable; now apply SSE64_correct|]. split; [apply SSE64_packs|]. split; assumption.
Qed.
Lemma gemm_avx2 m junk t0 t1 t2 fl t hw max_num_threads sc scs lhs rhs result lo ro p L R LO RO out before :
  let K := AVX2_kernel junk t0 t1 t2 fl in
  length junk = 16%nat ->
  tuning_ok t -> threads_ok AVX2_fmt hw max_num_threads (Z.max (mm_rows result) (mm_cols result)) ->
  gemm_problem m K (op_mem lhs) (op_map lhs) (op_mem rhs) (op_map rhs) result lo ro p L R LO RO out ->
  valid_view before result ->
  exists phases, DispatchGemmShape m K t hw max_num_threads sc scs lhs rhs result lo ro p = Some phases /\
    (exists trace, execution phases trace) /\
    forall trace, execution phases trace ->
      exists after, perform trace before = Some after /\ stored before after result out.
Proof.
  intros K Hj Ht Hth HP Hv. apply (gemm_correct m K) with (L := L) (R := R) (LO := LO) (RO := RO); try assumption.
  split; [exact AVX2_fmt_ok|]. split; [now apply AVX2_usable|]. split; [apply AVX2_packs|]. split; assumption.
Qed.
Lemma ex_threads_sse : threads_ok SSE64_fmt 4 3 4.
Proof. unfold threads_ok. cbv zeta. change (kRows SSE64_fmt) with 12. vm_compute; intuition discriminate. Qed.

Lemma ex_threads_avx : threads_ok AVX2_fmt 4 3 4.
Proof. unfold threads_ok. cbv zeta. change (kRows AVX2_fmt) with 24. vm_compute; intuition discriminate. Qed.

Lemma kxB34 : holds_run (kf_rhs AVX2_fmt) (kx_block 4 4 34 kxB) 100 (RoundUp 32 6) kxB.
Proof.
  intros w d Hw Hd. apply (kx_holds 4 1 34 kxB); [lia|lia|exists 17; reflexivity|exact kxB_byte|exact Hw|].
  change (RoundUp 32 6) with 32 in Hd. lia.
Qed.
Lemma kxB34_readable : readable (kx_block 4 4 34 kxB) 100 (4 * RoundUp 32 6 + 8).
Proof.
  intros j Hj. change (4 * RoundUp 32 6 + 8) with 136 in Hj. unfold kx_block.
  replace ((0 <=? 100 + j - 100) && (100 + j - 100 <? 4 * 34)) with true by lia. discriminate.
Qed.

Lemma AVX2_tight_refuted : exists junk t0 t1 t2 fl, length junk = 16%nat /\
  ~ kernel_correct Wrap (AVX2_kernel junk t0 t1 t2 fl).
Proof.
  exists (zregs 16), 0, 0, 0, fl0. split; [reflexivity|]. intros H.
  specialize (H kx_dst 20 30 (kx_block 8 24 32 kxA1) 100 (kx_block 4 4 32 kxB1) 100 0 32 kxA1 kxB1 (kx_old 30)).
  destruct H as (res & E & _).
  - lia.
  - lia.
  - exists 16. reflexivity.
  - exact (kx_inj 24 30 ltac:(lia)).
  - apply (kx_holds 8 3 32 kxA1); [lia|lia|exists 16; reflexivity|exact kxA1_byte].
  - apply (kx_holds 4 1 32 kxB1); [lia|lia|exists 16; reflexivity|exact kxB1_byte].
  - intros r c Hr Hc. apply (kx_dst_ok 24 30); try lia; assumption.
  - left. reflexivity.
  - apply (f_equal (fun o : option mem => match o with Some _ => true | None => false end)) in E. vm_compute in E. discriminate.
Qed.
Lemma SSE64_unpadded_refuted : exists result dst cs lhs lp rhs rp run A B,
  holds_run (kf_lhs SSE64_fmt) lhs lp run A /\ holds_run (kf_rhs SSE64_fmt) rhs rp run B /\ (2 | run) /\ 0 < run /\
  exists result' v, k_run (SSE64_kernel (zregs 16) 0 0 0 fl0) result dst 1 cs lhs lp rhs rp 0 run = Some result' /\
    result' dst = Some v /\ v <> wrapS 32 (sumZ (fun d => A 0 d * B 0 d) 0 run).
Proof.
  exists kx_dst, 20, 13, (kx_block 4 12 16 kxA1), 100, (kx_block 4 4 16 kxB1), 100, 6, kxA1, kxB1.
  split. { intros w d Hw Hd. apply (kx_holds 4 3 16 kxA1); [lia|lia|exists 8; reflexivity|exact kxA1_byte|exact Hw|lia]. }
  split. { intros w d Hw Hd. apply (kx_holds 4 1 16 kxB1); [lia|lia|exists 8; reflexivity|exact kxB1_byte|exact Hw|lia]. }
  split; [exists 3; reflexivity|]. split; [lia|].
  destruct (SSE64_run (zregs 16) 0 0 0 fl0 kx_dst 20 13 (kx_block 4 12 16 kxA1) 100 (kx_block 4 4 16 kxB1) 100 0 3 kxA1 kxB1 (kx_old 13))
    as (res & E & HV & _).
  - reflexivity.
  - lia.
  - exact (kx_inj 12 13 ltac:(lia)).
  - intros w d Hw Hd. change (X86Loop.levels 3) with 8 in Hd. apply (kx_holds 4 3 16 kxA1); [lia|lia|exists 8; reflexivity|exact kxA1_byte|exact Hw|lia].
  - intros w d Hw Hd. change (X86Loop.levels 3) with 8 in Hd. apply (kx_holds 4 1 16 kxB1); [lia|lia|exists 8; reflexivity|exact kxB1_byte|exact Hw|lia].
  - intros r c Hr Hc. apply (kx_dst_ok 12 13); lia.
  - exists res. eexists. split; [exact E|]. split; [exact (HV 0 0 ltac:(lia) ltac:(lia))|]. vm_compute. discriminate.
Qed.
Lemma SSE64_overread_refuted : exists result dst cs lhs lp rhs rp run A B,
  holds_run (kf_lhs SSE64_fmt) lhs lp run A /\ holds_run (kf_rhs SSE64_fmt) rhs rp run B /\ (2 | run) /\ 0 < run /\
  (forall r c, 0 <= r < 12 -> 0 <= c < 4 -> exists v, result (dst + (r * 1 + c * cs)) = Some v) /\
  k_run (SSE64_kernel (zregs 16) 0 0 0 fl0) result dst 1 cs lhs lp rhs rp 0 run = None.
Proof.
  exists kx_dst, 20, 13, (kx_block 4 12 6 kxA1), 100, (kx_block 4 4 6 kxB1), 100, 6, kxA1, kxB1.
  split; [apply (kx_holds 4 3 6 kxA1); [lia|lia|exists 3; reflexivity|exact kxA1_byte]|].
  split; [apply (kx_holds 4 1 6 kxB1); [lia|lia|exists 3; reflexivity|exact kxB1_byte]|].
  split; [exists 3; reflexivity|]. split; [lia|]. split.
  - intros r c Hr Hc. eexists. apply (kx_dst_ok 12 13); lia.
  - match goal with |- ?x = None => assert (H : match x with Some _ => true | None => false end = false) by (vm_compute; reflexivity);
      destruct x; [discriminate|reflexivity] end.
Qed.
