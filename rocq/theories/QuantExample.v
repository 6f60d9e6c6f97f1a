(* QuantExample.v: a concrete run of the quantization example, 2x4 times 4x3, used
   beside the theorems of Props_Quant.v. *)
From Coq Require Import SpecFloat QArith Qabs Qminmax.
From Verif Require Import Base BaseLemmas CommonModel PackModel GemmSpec FixedPointSpec ComputeModel KernelSpec KernelProofs
  OutputModel UnpackModel GemmModel GemmContract GemmExample EightBitModel QuantModel FloatSpec FloatProofs QuantSpec QuantProofs QuantProofs7.

Definition eighths (l : list Z) : list float := map (fun z => fdiv (float_of_Z z) (float_of_Z 8)) l.
Definition qx_lhs : list float := eighths [3; -8; 5; 1; -2; 7; 0; 4].
Definition qx_rhs : list float := eighths [-1; 6; 2; 8; 5; -3; 7; 1; -6; 4; 4; -8].
Definition qx_q1 : qparams := mk_qparams (S754_finite false 15790321 (-31)) 136.
Definition qx_q2 : qparams := mk_qparams (S754_finite false 8421505 (-30)) 127.
Definition qx_q3 : qparams := mk_qparams (S754_finite false 9737365 (-31)) 48.
Definition qx_L : list Z := [187; 0; 221; 153; 102; 255; 136; 204].
Definition qx_R : list Z := [111; 223; 159; 255; 207; 79; 239; 143; 31; 191; 191; 0].
Lemma qx_offline : offline true 148 2 4 3 qx_lhs qx_rhs =
  Some {| o_lhs := qx_q1; o_rhs := qx_q2; o_result := qx_q3; o_uint8_lhs := qx_L; o_uint8_rhs := qx_R;
          o_multiplier := 1748031232; o_right_shift := 6 |}.
Proof. vm_compute. reflexivity. Qed.

Definition list_mem (l : list Z) : mem := fun a => if 0 <=? a then nth_error l (Z.to_nat a) else None.
Definition qx_lhs_op : operand := mk_operand (list_mem qx_L) (mk_map 0 2 4 2 ColMajor).
Definition qx_rhs_op : operand := mk_operand (list_mem qx_R) (mk_map 0 4 3 4 ColMajor).
Definition qx_result : matrix_map := mk_map 0 2 3 2 ColMajor.
Definition qx_before : mem := fun a => if (0 <=? a) && (a <? 6) then Some 0 else None.
Definition qx_LF (r d : Z) : float := nth (Z.to_nat (r + 2 * d)) qx_lhs S754_nan.
Definition qx_RF (d c : Z) : float := nth (Z.to_nat (d + 4 * c)) qx_rhs S754_nan.
Definition qx_LC (r d : Z) : Z := nth (Z.to_nat (r + 2 * d)) qx_L 0.
Definition qx_RC (d c : Z) : Z := nth (Z.to_nat (d + 4 * c)) qx_R 0.

Lemma below2 r : 0 <= r < 2 -> r = 0 \/ r = 1. Proof. lia. Qed.
Lemma below3 r : 0 <= r < 3 -> r = 0 \/ r = 1 \/ r = 2. Proof. lia. Qed.
Lemma below4 r : 0 <= r < 4 -> r = 0 \/ r = 1 \/ r = 2 \/ r = 3. Proof. lia. Qed.

Lemma qx_holds_lhs : holds_matrix (op_mem qx_lhs_op) (op_map qx_lhs_op) qx_LC.
Proof.
  intros r c Hr Hc. apply below2 in Hr. apply below4 in Hc.
  destruct Hr as [-> | ->], Hc as [-> | [-> | [-> | ->]]]; vm_compute; (split; [reflexivity | split; discriminate]).
Qed.
Lemma qx_holds_rhs : holds_matrix (op_mem qx_rhs_op) (op_map qx_rhs_op) qx_RC.
Proof.
  intros r c Hr Hc. apply below4 in Hr. apply below3 in Hc.
  destruct Hr as [-> | [-> | [-> | ->]]], Hc as [-> | [-> | ->]]; vm_compute; (split; [reflexivity | split; discriminate]).
Qed.
Lemma qx_view : valid_view qx_before qx_result.
Proof.
  split; [| cbn; lia]. intros r c Hr Hc. cbn in Hr, Hc. exists 0. unfold qx_before, entry_addr. cbn.
  replace ((0 <=? r + c * 2) && (r + c * 2 <? 6)) with true by lia. reflexivity.
Qed.
Lemma qx_config m : gemm_config_ok m (ReferenceKernel m ex_fmt1) (ex_tune 64 256) 4 0 qx_result.
Proof.
  split; [exact ex_fmt1_ok|]. split; [apply correct_usable, reference_kernel_correct; [exact ex_fmt1_ok | reflexivity | reflexivity]|].
  split; [apply generic_packs; [exact ex_fmt1_ok|reflexivity]|]. split; [apply ex_tune_ok; lia|]. right. vm_compute. repeat split; discriminate.
Qed.
Lemma qx_uint8 m : takes_uint8 (k_fmt (ReferenceKernel m ex_fmt1)).
Proof. split; discriminate. Qed.
Lemma qx_quantized_lhs : quantized_from (float_of_Z (-1)) (fdiv (float_of_Z 7) (float_of_Z 8)) qx_q1 qx_LF qx_LC 2 4 1.
Proof.
  split; [split; [split; reflexivity | split; [split; reflexivity | split; vm_compute; discriminate]]|].
  split; [vm_compute; reflexivity|]. intros r c Hr Hc. apply below2 in Hr. apply below4 in Hc.
  destruct Hr as [-> | ->], Hc as [-> | [-> | [-> | ->]]];
    (split; [split; [split; reflexivity | split; vm_compute; discriminate] | split; [vm_compute; discriminate | vm_compute; reflexivity]]).
Qed.
Lemma qx_quantized_rhs : quantized_from (float_of_Z (-1)) (float_of_Z 1) qx_q2 qx_RF qx_RC 4 3 1.
Proof.
  split; [split; [split; reflexivity | split; [split; reflexivity | split; vm_compute; discriminate]]|].
  split; [vm_compute; reflexivity|]. intros r c Hr Hc. apply below4 in Hr. apply below3 in Hc.
  destruct Hr as [-> | [-> | [-> | ->]]], Hc as [-> | [-> | ->]];
    (split; [split; [split; reflexivity | split; vm_compute; discriminate] | split; [vm_compute; discriminate | vm_compute; reflexivity]]).
Qed.
