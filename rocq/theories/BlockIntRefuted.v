(* BlockIntRefuted.v: depths for which the block parameters overflow int *)
From Verif Require Import Base CommonModel CommonProofs BlockIntModel Props_Common.

Definition arm_tuning : tuning := {| t_l1_bytes := 16384; t_l2_bytes := 393216; t_factor := factor_3_4 |}.
Lemma block_overflow_refuted : exists k rows cols depth t bp,
  kernel_fmt_ok k /\ 0 < rows <= 2 ^ 29 /\ 0 < cols <= 2 ^ 28 /\ 0 < depth <= 2 ^ 29 /\
  BlockParams_Init k rows cols depth 1 t = Some bp /\ BlockParams_Init_int Trap k rows cols depth 1 t = None.
Proof.
  exists fmt_12x4, 12, 4, (2 ^ 29), arm_tuning. eexists.
  split; [exact (proj1 C16_example)|]. split; [lia|]. split; [lia|]. split; [lia|]. split; vm_compute; reflexivity.
Qed.
Lemma block_division_refuted : exists k rows cols depth nt t bp,
  kernel_fmt_ok k /\ 0 < nt /\ nt * kRows k <= rows /\ rows <= 2 ^ 29 /\ 0 < cols <= 2 ^ 28 /\ 0 < depth <= 2 ^ 29 /\
  kCols k * (depth + kf_reg k) + t_l2_bytes t < 2 ^ 31 /\
  BlockParams_Init k rows cols depth nt t = Some bp /\ forall m, BlockParams_Init_int m k rows cols depth nt t = None.
Proof.
  exists fmt_12x4, 192, 4, (2 ^ 28 - 16), 16, arm_tuning. eexists.
  split; [exact (proj1 C16_example)|]. split; [lia|]. split; [vm_compute; discriminate|]. split; [lia|]. split; [lia|]. split; [lia|].
  split; [vm_compute; reflexivity|]. split; [vm_compute; reflexivity|]. intros []; vm_compute; reflexivity.
Qed.
