(* Int8InputsExample.v: concrete int8 matrices beside the theorems of Props_Int8Inputs.v *)
From Verif Require Import Base BaseLemmas CommonModel PackModel GemmSpec ComputeModel KernelSpec KernelProofs OutputModel OutputSpec OutputSimdSpec
  UnpackModel GemmModel GemmContract GemmProofs4 GemmExample SimdModel X86Model X86Example ArmModel ArmInt8 ArmContract ArmInt8Inputs ArmExample.

Definition arr (l : list Z) : mem := fun a => if 0 <=? a then nth_error l (Z.to_nat a) else None.
(* 2x3 row-major with stride 4, 3x4 column-major with stride 5 *)
Definition ii_lhs_data : list Z := [-127; 5; 100; 0; 60; -3; 127].
Definition ii_rhs_data : list Z := [-128; 127; -128; 0; 0; 7; -90; 33; 0; 0; 127; 127; 127; 0; 0; -1; 0; 1].
Definition ii_lhs : operand := mk_operand (arr ii_lhs_data) (mk_map 0 2 3 4 RowMajor).
Definition ii_rhs : operand := mk_operand (arr ii_rhs_data) (mk_map 0 3 4 5 ColMajor).
Definition iiL (r d : Z) : Z := nth (Z.to_nat (r * 4 + d)) ii_lhs_data 0.
Definition iiR (d c : Z) : Z := nth (Z.to_nat (d + c * 5)) ii_rhs_data 0.
Definition iiLO (_ : Z) : Z := 3.
Definition iiRO (_ : Z) : Z := -7.
Definition ii_pipe : list stage := [SBias (VMap VRow (ex_vec [1000; -2000; 3000; 77])); SQuantizeDown 50 13 10; SSatI8].
Definition ii_out (r c : Z) : Z :=
  match pipe_at Trap ii_pipe r c (offset_product iiL iiR iiLO iiRO 3 r c) with Some v => v | None => 0 end.

Lemma ii_holds_lhs : holds_entries (-128) (op_mem ii_lhs) (op_map ii_lhs) iiL.
Proof.
  intros r c Hr Hc. cbn in Hr, Hc.
  assert (r = 0 \/ r = 1) as [->| ->] by lia; assert (c = 0 \/ c = 1 \/ c = 2) as [->|[->| ->]] by lia; (split; [reflexivity|vm_compute; split; discriminate]).
Qed.
Lemma ii_holds_rhs : holds_entries (-128) (op_mem ii_rhs) (op_map ii_rhs) iiR.
Proof.
  intros r c Hr Hc. cbn in Hr, Hc.
  assert (r = 0 \/ r = 1 \/ r = 2) as [->|[->| ->]] by lia; assert (c = 0 \/ c = 1 \/ c = 2 \/ c = 3) as [->|[->|[->| ->]]] by lia;
    (split; [reflexivity|vm_compute; split; discriminate]).
Qed.
Lemma ii_above r d : 0 <= r < 2 -> 0 <= d < 3 -> iiL r d <> -128.
Proof.
  intros Hr Hc. assert (r = 0 \/ r = 1) as [->| ->] by lia; assert (d = 0 \/ d = 1 \/ d = 2) as [->|[->| ->]] by lia; discriminate.
Qed.
Lemma ii_safe : int32_safe (-128) 16 3 2 4 iiLO iiRO.
Proof. exists 255, 255. unfold iiLO, iiRO. repeat split; intros; try lia. Qed.
Lemma ii_pipe_at m r c : 0 <= r < 2 -> 0 <= c < 4 ->
  pipe_at m ii_pipe r c (wrapS 32 (offset_product iiL iiR iiLO iiRO 3 r c)) = Some (ii_out r c).
Proof.
  intros Hr Hc.
  assert (r = 0 \/ r = 1) as [->| ->] by lia; assert (c = 0 \/ c = 1 \/ c = 2 \/ c = 3) as [->|[->|[->| ->]]] by lia;
    destruct m; vm_compute; reflexivity.
Qed.
Lemma ii_vector_safe m P : vector_safe (Some Neon) m ii_pipe 2 4 iiLO iiRO P.
Proof.
  split; [discriminate|]. split; [intros r _; unfold i32, iiLO; lia|].
  split; [unfold i32, iiRO; lia|]. intros r c Hr Hc.
  split; [|intros y _; split; [unfold stage_safe, i32; lia|intros z _; split; [exact I|intros; exact I]]].
  intros x E. assert (c = 0 \/ c = 1 \/ c = 2 \/ c = 3) as [->|[->|[->| ->]]] by lia; vm_compute in E; injection E as <-; unfold i32; lia.
Qed.
Lemma ii_threads : threads_ok N4x2i_fmt 4 3 4.
Proof. exact ex_threads_neon8. Qed.

(* the same lhs stored column by column *)
Definition ii_lhs_col : operand := mk_operand (arr [-127; 60; 5; -3; 100; 127]) (mk_map 0 2 3 2 ColMajor).
Lemma ii_holds_lhs_col : holds_entries (-128) (op_mem ii_lhs_col) (op_map ii_lhs_col) iiL.
Proof.
  intros r c Hr Hc. cbn in Hr, Hc.
  assert (r = 0 \/ r = 1) as [->| ->] by lia; assert (c = 0 \/ c = 1 \/ c = 2) as [->|[->| ->]] by lia; (split; [reflexivity|vm_compute; split; discriminate]).
Qed.
Lemma column_major_lhs_refuted : exists K lhs rhs result lo ro p L R,
  neon_int8_inputs K /\ tuning_ok (ex_tune 64 64) /\ threads_ok (k_fmt K) 4 3 (Z.max (mm_rows result) (mm_cols result)) /\
  mm_rows (op_map lhs) = mm_rows result /\ mm_cols (op_map rhs) = mm_cols result /\ mm_cols (op_map lhs) = mm_rows (op_map rhs) /\
  holds_entries (-128) (op_mem lhs) (op_map lhs) L /\ holds_entries (-128) (op_mem rhs) (op_map rhs) R /\
  mm_order (op_map lhs) = ColMajor /\ mm_order (op_map rhs) = ColMajor /\
  forall m sc scs, DispatchGemmShape m K (ex_tune 64 64) 4 3 sc scs lhs rhs result lo ro p = None.
Proof.
  exists (N4x2i_kernel (zregs 16) 1 2 afl0 loc0), ii_lhs_col, ii_rhs, ex_result, (VDup VCol 3 2), (VDup VRow (-7) 4), ii_pipe, iiL, iiR.
  split; [now constructor|]. split; [apply ex_tune_ok; lia|]. split; [exact ii_threads|]. split; [reflexivity|]. split; [reflexivity|]. split; [reflexivity|].
  split; [exact ii_holds_lhs_col|]. split; [exact ii_holds_rhs|]. split; [reflexivity|]. split; [reflexivity|].
  intros m sc scs. destruct m; vm_compute; reflexivity.
Qed.
