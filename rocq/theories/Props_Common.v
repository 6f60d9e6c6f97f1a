(* Props_Common.v: property theorems C16 (blocking parameters), C18 (cell
   layouts) and C40 (rounding helpers on sizes). *)
From Verif Require Import Base CommonModel CommonProofs.

(* C16.  The only hypothesis about the float L2 factor is that the C++
   conversion static_cast<int>(factor * x) is defined (Some x). *)
Theorem C16_block_params : forall k rows cols depth num_threads t x,
  kernel_fmt_ok k -> 0 < rows -> 0 < cols -> 0 < depth -> 0 < num_threads ->
  rf_mul (t_factor t) (Z.quot (t_l2_bytes t) (RoundUp (kf_reg k) depth)) = Some x ->
  exists bp, BlockParams_Init k rows cols depth num_threads t = Some bp /\
    (0 < bp_l2_rows bp /\ 0 < bp_l2_cols bp /\ 0 < bp_l2_depth bp) /\
    (0 < bp_l1_rows bp <= bp_l2_rows bp /\ 0 < bp_l1_cols bp <= bp_l2_cols bp /\
     0 < bp_l1_depth bp <= bp_l2_depth bp) /\
    ((kRows k | bp_l2_rows bp) /\ (kRows k | bp_l1_rows bp) /\
     (kCols k | bp_l2_cols bp) /\ (kCols k | bp_l1_cols bp) /\
     (kf_reg k | bp_l2_depth bp) /\ (kf_reg k | bp_l1_depth bp)) /\
    depth <= bp_l2_depth bp < depth + kf_reg k.
Proof. exact block_params_full. Qed.
Print Assumptions C16_block_params.
(* the x86-64 kernel 12x4, register size 16, default cache sizes, factor 0.75;
   and the same with absurd cache sizes *)
Definition fmt_12x4 : kernel_fmt :=
  mk_kernel_fmt (mk_side_fmt 4 2 CWidthMajor 3 FUint8) (mk_side_fmt 4 2 CWidthMajor 1 FUint8) 16.
Definition factor_3_4 : rhs_factor := {| rf_mul := fun x => Some (Z.quot (3 * x) 4); rf_is_one := false |}.
Example C16_example : kernel_fmt_ok fmt_12x4 /\
  BlockParams_Init fmt_12x4 1000 700 300 2
    {| t_l1_bytes := 16384; t_l2_bytes := 393216; t_factor := factor_3_4 |}
  = Some {| bp_l1_rows := 12; bp_l1_cols := 700; bp_l1_depth := 304;
            bp_l2_rows := 36; bp_l2_cols := 700; bp_l2_depth := 304 |} /\
  BlockParams_Init fmt_12x4 1000 700 300 2
    {| t_l1_bytes := -5; t_l2_bytes := 0; t_factor := factor_3_4 |}
  = Some {| bp_l1_rows := 12; bp_l1_cols := 4; bp_l1_depth := 16;
            bp_l2_rows := 12; bp_l2_cols := 4; bp_l2_depth := 304 |}.
Proof.
  split; [|split; vm_compute; reflexivity].
  repeat split; cbn; try lia; try discriminate. exists 8. reflexivity.
Qed.

(* C18: (width, depth) -> offset is a bijection onto [0, width*depth) *)
Theorem C18_cell_layout_bijection : forall f, side_fmt_ok f ->
  (forall w d, 0 <= w < sf_cw f -> 0 <= d < sf_cd f ->
     exists i, OffsetIntoCell f w d = Some i /\ 0 <= i < sf_cw f * sf_cd f) /\
  (forall w d w' d' i, 0 <= w < sf_cw f -> 0 <= d < sf_cd f -> 0 <= w' < sf_cw f -> 0 <= d' < sf_cd f ->
     OffsetIntoCell f w d = Some i -> OffsetIntoCell f w' d' = Some i -> w = w' /\ d = d') /\
  (forall i, 0 <= i < sf_cw f * sf_cd f ->
     exists w d, 0 <= w < sf_cw f /\ 0 <= d < sf_cd f /\ OffsetIntoCell f w d = Some i).
Proof. exact cell_layout_bijection. Qed.
Print Assumptions C18_cell_layout_bijection.
Example C18_example : side_fmt_ok (mk_side_fmt 4 4 CDiagonal 1 FUint8) /\
  map (fun wd => OffsetIntoCell (mk_side_fmt 4 4 CDiagonal 1 FUint8) (fst wd) (snd wd))
    [(0,0); (3,0); (0,1); (2,3)] = [Some 0; Some 12; Some 13; Some 15].
Proof. split; [repeat split; cbn; lia|vm_compute; reflexivity]. Qed.

(* C40: RoundDown<m>(i) / RoundUp<m>(i) on int *)
Theorem C40_size_rounding : forall m i, 0 < m -> 0 <= i -> i + m - 1 < 2 ^ 31 ->
  ((m | RoundDown32 m i) /\ RoundDown32 m i <= i /\
   forall x, (m | x) -> x <= i -> x <= RoundDown32 m i) /\
  ((m | RoundUp32 m i) /\ i <= RoundUp32 m i /\
   forall x, (m | x) -> i <= x -> RoundUp32 m i <= x).
Proof. exact size_rounding_full. Qed.
Print Assumptions C40_size_rounding.
Theorem C40_ceil_quotient : forall a b, 0 <= a -> 0 < b ->
  a <= CeilQuotient a b * b /\ forall q, a <= q * b -> CeilQuotient a b <= q.
Proof. exact CeilQuotient_full. Qed.
Print Assumptions C40_ceil_quotient.
(* smallest power of two not below n, for n up to 2^32 in a 64-bit size_t *)
Theorem C40_round_up_to_power_of_two : forall w n, 33 <= w -> 1 <= n <= 2 ^ 32 ->
  exists k, 0 <= k /\ RoundUpToPowerOfTwo w n = 2 ^ k /\ n <= 2 ^ k /\
    (forall j, 0 <= j -> n <= 2 ^ j -> 2 ^ k <= 2 ^ j).
Proof. exact RoundUpToPowerOfTwo_spec. Qed.
Print Assumptions C40_round_up_to_power_of_two.
Example C40_example : RoundDown32 12 1000 = 996 /\ RoundUp32 12 1000 = 1008 /\
  CeilQuotient 1000 12 = 84 /\ RoundUpToPowerOfTwo 64 1000 = 1024 /\ RoundUpToPowerOfTwo 64 4096 = 4096.
Proof. repeat split; vm_compute; reflexivity. Qed.
(* beyond 2^32 the result need not be a power of two *)
Theorem C40_power_of_two_64bit_refuted : exists n, 0 < n < 2 ^ 64 /\
  forall k, 0 <= k -> RoundUpToPowerOfTwo 64 n <> 2 ^ k.
Proof. exact pow2_64_refuted. Qed.
Print Assumptions C40_power_of_two_64bit_refuted.
(* on negative ints RoundDown computes in unsigned arithmetic *)
Theorem C40_round_down_negative_refuted :
  exists m i, 0 < m /\ - 2 ^ 31 <= i < 0 /\ ~ (m | RoundDown32 m i).
Proof. exact rounddown_negative_refuted. Qed.
Print Assumptions C40_round_down_negative_refuted.
