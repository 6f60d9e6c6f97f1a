(* Props_BlockInt.v: property theorems C69 (block parameters in int arithmetic) *)
From Verif Require Import Base CommonModel CommonProofs BlockIntModel BlockIntProofs Props_Common BlockIntRefuted.

(* C69: within these bounds nothing in block_params.h overflows, and the int
   computation gives the parameters of C16.  The conversion
   static_cast<int>(factor * x) is defined and at most x (a factor of at most 1). *)
Theorem C69_no_overflow : forall m k rows cols depth num_threads t x,
  kernel_fmt_ok k -> kRows k <= 64 -> kCols k <= 64 -> kf_reg k <= 64 ->
  0 < rows <= 2 ^ 29 -> 0 < cols <= 2 ^ 28 -> 0 < depth <= 2 ^ 29 -> 0 < num_threads ->
  0 <= t_l1_bytes t <= 2 ^ 29 -> 0 <= t_l2_bytes t <= 2 ^ 29 ->
  kCols k * (depth + kf_reg k) + t_l2_bytes t < 2 ^ 31 ->
  num_threads * (depth + kf_reg k + 4 * (cols + kCols k)) < 2 ^ 31 ->
  rf_mul (t_factor t) (Z.quot (t_l2_bytes t) (RoundUp (kf_reg k) depth)) = Some x ->
  x <= Z.quot (t_l2_bytes t) (RoundUp (kf_reg k) depth) ->
  exists bp, BlockParams_Init_int m k rows cols depth num_threads t = Some bp /\
    BlockParams_Init k rows cols depth num_threads t = Some bp.
Proof. exact block_params_int. Qed.
Print Assumptions C69_no_overflow.
(* a large problem on four threads meets the hypotheses; cache sizes as on ARM *)
Example C69_example : kernel_fmt_ok fmt_12x4 /\ kRows fmt_12x4 = 12 /\ kCols fmt_12x4 = 4 /\ kf_reg fmt_12x4 = 16 /\
  4 * (1000001 + 16) + 393216 < 2 ^ 31 /\ 4 * (1000001 + 16 + 4 * (100003 + 4)) < 2 ^ 31 /\
  rf_mul factor_3_4 (Z.quot 393216 (RoundUp 16 1000001)) = Some 0 /\
  BlockParams_Init_int Trap fmt_12x4 300007 100003 1000001 4 arm_tuning =
  Some {| bp_l1_rows := 12; bp_l1_cols := 4; bp_l1_depth := 1024;
          bp_l2_rows := 12; bp_l2_cols := 4; bp_l2_depth := 1000016 |} /\
  BlockParams_Init_int Trap fmt_12x4 1000 700 300 2 arm_tuning =
  Some {| bp_l1_rows := 12; bp_l1_cols := 700; bp_l1_depth := 304;
          bp_l2_rows := 36; bp_l2_cols := 700; bp_l2_depth := 304 |}.
Proof.
  split; [exact (proj1 C16_example)|]. split; [reflexivity|]. split; [reflexivity|]. split; [reflexivity|].
  split; [lia|]. split; [lia|]. split; [reflexivity|]. split; vm_compute; reflexivity.
Qed.

(* The bound on the depth is needed: with a depth of 2^29 the product l2_depth *
   l2_cols overflows. *)
Theorem C69_depth_refuted : exists k rows cols depth t bp,
  kernel_fmt_ok k /\ 0 < rows <= 2 ^ 29 /\ 0 < cols <= 2 ^ 28 /\ 0 < depth <= 2 ^ 29 /\
  BlockParams_Init k rows cols depth 1 t = Some bp /\ BlockParams_Init_int Trap k rows cols depth 1 t = None.
Proof. exact block_overflow_refuted. Qed.
Print Assumptions C69_depth_refuted.
(* The bound on depth times threads is needed even where overflow wraps around: the
   divisor num_threads * (l2_depth + 4 * l2_cols) can become 0. *)
Theorem C69_threads_refuted : exists k rows cols depth num_threads t bp,
  kernel_fmt_ok k /\ 0 < num_threads /\ num_threads * kRows k <= rows /\ rows <= 2 ^ 29 /\ 0 < cols <= 2 ^ 28 /\ 0 < depth <= 2 ^ 29 /\
  kCols k * (depth + kf_reg k) + t_l2_bytes t < 2 ^ 31 /\
  BlockParams_Init k rows cols depth num_threads t = Some bp /\ forall m, BlockParams_Init_int m k rows cols depth num_threads t = None.
Proof. exact block_division_refuted. Qed.
Print Assumptions C69_threads_refuted.
