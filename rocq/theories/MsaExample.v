(* MsaExample.v: concrete cases for the MSA kernel theorems *)
From Verif Require Import Base BaseLemmas CommonModel PackModel GemmSpec ComputeModel KernelSpec OutputModel OutputSpec UnpackModel
  GemmModel GemmContract GemmProofs4 GemmExample SimdModel SimdProofs X86Model X86Contract X86Example ArmModel ArmInt8 ArmContract ArmExample
  MsaModel MsaKernels MsaContract.

Lemma M4x4_any_pair_refuted : forall asm, exists junk t0 t1, length junk = 32%nat /\
  ~ kernel_correct Wrap (M4x4_kernel asm junk t0 t1).
Proof.
  intros asm. exists (zregs 32), 1, 2. split; [reflexivity|]. intros H.
  destruct (H kx_dst 20 13 (pk_block (kf_lhs M4x4_fmt) 16 minus) 100 (pk_block (kf_rhs M4x4_fmt) 16 minus) 100 0 16 minus minus (kx_old 13))
    as (res & E & HV & _).
  - lia.
  - lia.
  - exists 1. reflexivity.
  - apply (kx_inj 4 13). lia.
  - apply (pk_holds (kf_lhs M4x4_fmt) 1 minus); try (cbn; lia); [discriminate|reflexivity].
  - apply (pk_holds (kf_rhs M4x4_fmt) 1 minus); try (cbn; lia); [discriminate|reflexivity].
  - intros r c Hr Hc. apply (kx_dst_ok 4 13); [lia|lia|exact Hr|exact Hc].
  - left. reflexivity.
  - destruct (HV 0 0) as (v & Ev & _ & Hv); [split; reflexivity || discriminate|split; reflexivity || discriminate|].
    specialize (Hv (fun _ _ => I)). assert (E2 : forall d, 16 <= d < RoundUp 16 16 -> minus 0 d = 0 /\ minus 0 d = 0).
    { change (RoundUp 16 16) with 16. intros d Hd. lia. }
    specialize (Hv E2).
    assert (X : option_map (fun m => m 20) (k_run (M4x4_kernel asm (zregs 32) 1 2) kx_dst 20 1 13
      (pk_block (kf_lhs M4x4_fmt) 16 minus) 100 (pk_block (kf_rhs M4x4_fmt) 16 minus) 100 0 16) = Some (Some (-262144))) by (vm_compute; reflexivity).
    rewrite E in X. cbn [option_map] in X. injection X as X. change (20 + (0 * 1 + 0 * 13)) with 20 in Ev.
    rewrite X in Ev. injection Ev as <-. vm_compute in Hv. discriminate.
Qed.
Lemma ex_threads_msa : threads_ok M12x8_fmt 4 3 4.
Proof. unfold threads_ok. cbv zeta. change (kRows M12x8_fmt) with 12. vm_compute; intuition discriminate. Qed.
Lemma ex_threads_msa8 : threads_ok M4x4_fmt 4 3 4.
Proof. unfold threads_ok. cbv zeta. change (kRows M4x4_fmt) with 4. vm_compute; intuition discriminate. Qed.
