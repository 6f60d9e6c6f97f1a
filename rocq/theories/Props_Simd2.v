(* Props_Simd2.v: property theorems C65, about the AVX, WebAssembly and MSA register
   operations of fixedpoint_avx.h, fixedpoint_wasmsimd.h and fixedpoint_msa.h
   (SimdModel2.v) against the scalar operations of fixedpoint.h (FixedPointModel.v).
   lane w i v is the signed value of lane i of register v (SimdSpec.v), has_lane says
   that a register of the target has that lane (SimdSpec2.v). *)
From Verif Require Import Base FixedPointModel FixedPointSpec SimdModel SimdSpec SimdModel2 SimdSpec2 SimdFull2.

(* C65: bit operations and filling a register *)
Theorem C65_bit_operations :
  forall t w i a b, has_lane t w i ->
  lane w i (s_and (simd t w) a b) = BitAnd (lane w i a) (lane w i b) /\ lane w i (s_or (simd t w) a b) = BitOr (lane w i a) (lane w i b) /\
  lane w i (s_xor (simd t w) a b) = BitXor (lane w i a) (lane w i b) /\ lane w i (s_not (simd t w) a) = BitNot (lane w i a).
Proof. exact f2_bits. Qed.
Print Assumptions C65_bit_operations.
Theorem C65_dup :
  forall t w i x, has_lane t w i -> - 2 ^ (w - 1) <= x < 2 ^ (w - 1) -> lane w i (s_dup (simd t w) x) = x.
Proof. exact f2_dup. Qed.
Print Assumptions C65_dup.
(* sums, differences, negations and products wrap like the scalar ones (fixedpoint_msa.h
   has no product) *)
Theorem C65_arithmetic :
  forall t w i a b, has_lane t w i ->
  Add Wrap w (lane w i a) (lane w i b) = Some (lane w i (s_add (simd t w) a b)) /\
  Sub Wrap w (lane w i a) (lane w i b) = Some (lane w i (s_sub (simd t w) a b)) /\
  Neg Wrap w (lane w i a) = Some (lane w i (s_neg (simd t w) a)).
Proof. exact f2_arith. Qed.
Print Assumptions C65_arithmetic.
Theorem C65_product :
  forall w a b,
  (forall i, has_lane Avx w i -> Mul Wrap w (lane w i a) (lane w i b) = Some (lane w i (avx_Mul w a b))) /\
  (forall i, has_lane Wasm w i -> Mul Wrap w (lane w i a) (lane w i b) = Some (lane w i (wasm_Mul w a b))).
Proof. exact f2_mul. Qed.
Print Assumptions C65_product.
(* shifts to the right by less than the width of a lane, on AVX by up to 31 *)
Theorem C65_shift_right :
  forall t w i a n, has_lane t w i -> 0 <= n <= w - 1 -> ShiftRight (lane w i a) n = Some (lane w i (s_shr (simd t w) a n)).
Proof. exact f2_shr. Qed.
Print Assumptions C65_shift_right.
Theorem C65_avx_shift_right :
  forall w i a n, has_lane Avx w i -> 0 <= n <= 31 -> ShiftRight (lane w i a) n = Some (lane w i (s_shr (simd Avx w) a n)).
Proof. exact f2_shr_avx. Qed.
Print Assumptions C65_avx_shift_right.
(* WebAssembly and MSA take the count modulo the width: shifting 16-bit lanes by 16
   changes nothing, where the scalar shift leaves the sign *)
Theorem C65_shift_right_refuted :
  exists a, is_register Wasm a /\ is_register Msa a /\ forall i, 0 <= i < 8 -> lane 16 i a = -5 /\
  ShiftRight (-5) 16 = Some (-1) /\ lane 16 i (s_shr (simd Wasm 16) a 16) = -5 /\ lane 16 i (s_shr (simd Msa 16) a 16) = -5.
Proof. exact f2_shr_refuted. Qed.
Print Assumptions C65_shift_right_refuted.
(* shifts to the left agree when the result fits, and wrap where the scalar one saturates *)
Theorem C65_shift_left :
  forall t w i a n, has_lane t w i -> 0 <= n <= 30 -> n <= w - 1 ->
  - 2 ^ (w - 1) <= lane w i a * 2 ^ n <= 2 ^ (w - 1) - 1 ->
  ShiftLeft Trap w (lane w i a) n = Some (lane w i (s_shl (simd t w) a n)).
Proof. exact f2_shl. Qed.
Print Assumptions C65_shift_left.
Theorem C65_shift_left_refuted :
  exists a, a_register a /\ (forall i, 0 <= i < 4 -> lane 32 i a = 1073741824) /\
  ShiftLeft Trap 32 1073741824 1 = Some 2147483647 /\ forall t i, 0 <= i < 4 -> lane 32 i (s_shl (simd t 32) a 1) = -2147483648.
Proof. exact f2_shl_refuted. Qed.
Print Assumptions C65_shift_left_refuted.
Theorem C65_masks :
  forall t w i a b, has_lane t w i -> let x := lane w i a in let y := lane w i b in
  lane w i (s_eq (simd t w) a b) = MaskIfEqual x y /\ lane w i (s_ne (simd t w) a b) = MaskIfNotEqual x y /\
  lane w i (s_gt (simd t w) a b) = MaskIfGreaterThan x y /\ lane w i (s_ge (simd t w) a b) = MaskIfGreaterThanOrEqual x y /\
  lane w i (s_lt (simd t w) a b) = MaskIfLessThan x y /\ lane w i (s_le (simd t w) a b) = MaskIfLessThanOrEqual x y /\
  lane w i (s_zero (simd t w) a) = MaskIfZero x /\ lane w i (s_nonzero (simd t w) a) = MaskIfNonZero x.
Proof. exact f2_masks. Qed.
Print Assumptions C65_masks.
(* choosing by a lane that is all ones or all zeroes *)
Theorem C65_select :
  forall t w i m a b, has_lane t w i -> lane w i m = 0 \/ lane w i m = -1 ->
  lane w i (s_select (simd t w) m a b) = (if lane w i m =? 0 then lane w i b else lane w i a).
Proof. exact f2_select. Qed.
Print Assumptions C65_select.
(* by any mask, bit by bit like the scalar function, except for 32 bits on AVX *)
Theorem C65_select_by_bits :
  forall t w i m a b, has_lane t w i -> t = Wasm \/ t = Msa \/ w = 16 ->
  lane w i (s_select (simd t w) m a b) = SelectUsingMask (lane w i m) (lane w i a) (lane w i b).
Proof. exact f2_select_any. Qed.
Print Assumptions C65_select_by_bits.
Theorem C65_avx_select_refuted :
  exists m a b, is_register Avx m /\ is_register Avx a /\ is_register Avx b /\
  SelectUsingMask (lane 32 0 m) (lane 32 0 a) (lane 32 0 b) = 5 /\ lane 32 0 (s_select (simd Avx 32) m a b) = 4.
Proof. exact f2_select_refuted. Qed.
Print Assumptions C65_avx_select_refuted.
(* Any, and All of masks, on WebAssembly and MSA *)
Theorem C65_any :
  forall t w a, w = 16 \/ w = 32 -> t <> Avx -> is_register t a ->
  (s_any (simd t w) a = true <-> exists i, has_lane t w i /\ lane w i a <> 0).
Proof. exact f2_any. Qed.
Print Assumptions C65_any.
Theorem C65_all :
  forall t w a, w = 16 \/ w = 32 -> t <> Avx -> is_mask t w a ->
  (s_all (simd t w) a = true <-> forall i, has_lane t w i -> lane w i a = -1).
Proof. exact f2_all. Qed.
Print Assumptions C65_all.
(* on AVX both hold of every register, even of the mask with no lane set: All tests a
   register against itself, and Any applies the bitwise complement of ints to 0 or 1 *)
Theorem C65_avx_tests_refuted :
  forall w, w = 16 \/ w = 32 ->
  exists a, is_register Avx a /\ is_mask Avx w a /\ (forall i, has_lane Avx w i -> lane w i a = 0) /\
  s_any (simd Avx w) a = true /\ s_all (simd Avx w) a = true.
Proof. exact f2_avx_tests_refuted. Qed.
Print Assumptions C65_avx_tests_refuted.
(* half sums round ties up, as on SSE and NEON *)
Theorem C65_half_sum :
  forall t w i a b, has_lane t w i ->
  lane w i (s_halfsum (simd t w) a b) = (lane w i a + lane w i b + 1) / 2 /\
  nearest_up ((lane w i a + lane w i b + 1) / 2) (lane w i a + lane w i b) 2.
Proof. exact f2_half. Qed.
Print Assumptions C65_half_sum.
Theorem C65_saturating_add :
  forall t i a b, has_lane t 16 i -> lane 16 i (s_addsat16 (simd t 16) a b) = SaturatingAdd 16 (lane 16 i a) (lane 16 i b).
Proof. exact f2_satadd. Qed.
Print Assumptions C65_saturating_add.
(* the doubling high product, except on AVX for the 32-bit minimum squared *)
Theorem C65_high_mul :
  forall t w i a b, has_lane t w i -> ~ (t = Avx /\ w = 32 /\ lane w i a = - 2 ^ 31 /\ lane w i b = - 2 ^ 31) ->
  lane w i (s_mul (simd t w) a b) = SaturatingRoundingDoublingHighMul w (lane w i a) (lane w i b).
Proof. exact f2_hmul. Qed.
Print Assumptions C65_high_mul.
Theorem C65_avx_high_mul_refuted :
  exists a, is_register Avx a /\ forall i, 0 <= i < 8 -> lane 32 i a = - 2 ^ 31 /\
  SaturatingRoundingDoublingHighMul 32 (- 2 ^ 31) (- 2 ^ 31) = 2 ^ 31 - 1 /\ lane 32 i (s_mul (simd Avx 32) a a) = - 2 ^ 31.
Proof. exact f2_hmul_refuted. Qed.
Print Assumptions C65_avx_high_mul_refuted.
(* division by a power of two is the scalar function and the nearest integer, ties away
   from zero *)
Theorem C65_rounding_divide :
  forall t w i x e, has_lane t w i -> 0 <= e <= w - 1 ->
  (exists r, s_divide (simd t w) x e = Some r /\ lane w i r = rnd_away (lane w i x) (2 ^ e) /\
     RoundingDivideByPOT Trap w (lane w i x) e = Some (lane w i r)) /\
  nearest_away (rnd_away (lane w i x) (2 ^ e)) (lane w i x) (2 ^ e).
Proof. exact f2_divide. Qed.
Print Assumptions C65_rounding_divide.
(* not for 16-bit lanes and exponent 16, which the assertions of the code allow *)
Theorem C65_rounding_divide_refuted :
  exists x, is_register Wasm x /\ is_register Msa x /\ forall i, 0 <= i < 8 -> lane 16 i x = 1 /\
  option_map (lane 16 i) (s_divide (simd Wasm 16) x 16) = Some 2 /\ option_map (lane 16 i) (s_divide (simd Msa 16) x 16) = Some 1 /\ rnd_away 1 (2 ^ 16) = 0.
Proof. exact f2_divide_refuted. Qed.
Print Assumptions C65_rounding_divide_refuted.
Theorem C65_multiply_by_pot :
  forall t w i e x, has_lane t w i -> - (w - 1) <= e <= w - 1 -> e <= 30 ->
  exists r, s_pot (simd t w) e x = Some r /\ SaturatingRoundingMultiplyByPOT Trap w e (lane w i x) = Some (lane w i r).
Proof. exact f2_pot. Qed.
Print Assumptions C65_multiply_by_pot.
(* the transcendental functions on registers give the scalar results on every lane of
   their domain, whatever the other lanes are *)
Theorem C65_exp :
  forall w ib, w = 16 \/ w = 32 -> 0 <= ib <= w - 3 -> forall t i a, has_lane t w i -> lane w i a <= 0 ->
  exists v, v_exp_on_negative_values (vops_of w (simd t w)) w ib a = Some v /\ exp_on_negative_values Trap w ib (lane w i a) = Some (lane w i v).
Proof. exact f2_exp. Qed.
Print Assumptions C65_exp.
Theorem C65_one_over_one_plus_x :
  forall w, w = 16 \/ w = 32 -> forall t i a, has_lane t w i -> 0 <= lane w i a ->
  exists v, v_one_over_one_plus_x (vops_of w (simd t w)) w a = Some v /\ one_over_one_plus_x Trap w (lane w i a) = Some (lane w i v).
Proof. exact (fun w W => proj1 (f2_one_over w W)). Qed.
Print Assumptions C65_one_over_one_plus_x.
Theorem C65_one_minus_x_over_one_plus_x :
  forall w, w = 16 \/ w = 32 -> forall t i a, has_lane t w i -> 0 <= lane w i a ->
  exists v, v_one_minus_x_over_one_plus_x (vops_of w (simd t w)) w a = Some v /\ one_minus_x_over_one_plus_x Trap w (lane w i a) = Some (lane w i v).
Proof. exact (fun w W => proj2 (f2_one_over w W)). Qed.
Print Assumptions C65_one_minus_x_over_one_plus_x.
Theorem C65_tanh :
  forall w ib, w = 16 \/ w = 32 -> 0 <= ib <= w - 4 -> forall t i a, has_lane t w i -> lane w i a <> - 2 ^ (w - 1) ->
  exists v, v_tanh (vops_of w (simd t w)) w ib a = Some v /\ ftanh Trap w ib (lane w i a) = Some (lane w i v).
Proof. exact f2_tanh. Qed.
Print Assumptions C65_tanh.
Theorem C65_logistic :
  forall w ib, w = 16 \/ w = 32 -> 0 <= ib <= w - 3 -> forall t i a, has_lane t w i -> lane w i a <> - 2 ^ (w - 1) ->
  exists v, v_logistic (vops_of w (simd t w)) w ib a = Some v /\ logistic Trap w ib (lane w i a) = Some (lane w i v).
Proof. exact f2_logistic. Qed.
Print Assumptions C65_logistic.

(* concrete registers: lanes 1000, -3, INT_MIN, INT_MAX and 7, 3, INT_MIN, 5; on AVX the
   same again in the upper half, the two registers exchanged *)
Definition qa : Z := 1000 + 4294967293 * 2 ^ 32 + 2147483648 * 2 ^ 64 + 2147483647 * 2 ^ 96.
Definition qb : Z := 7 + 3 * 2 ^ 32 + 2147483648 * 2 ^ 64 + 5 * 2 ^ 96.
Definition wa : Z := qa + qb * 2 ^ 128.
Definition wb : Z := qb + qa * 2 ^ 128.
Definition four_lanes (v : Z) : list Z := map (fun i => lane 32 i v) [0; 1; 2; 3].
Definition eight_lanes (v : Z) : list Z := map (fun i => lane 32 i v) [0; 1; 2; 3; 4; 5; 6; 7].
Example C65_lanes : four_lanes qa = [1000; -3; -2147483648; 2147483647] /\ four_lanes qb = [7; 3; -2147483648; 5] /\
  eight_lanes wa = [1000; -3; -2147483648; 2147483647; 7; 3; -2147483648; 5] /\
  has_lane Avx 32 7 /\ has_lane Avx 16 15 /\ has_lane Wasm 32 3 /\ has_lane Msa 16 7 /\ is_register Avx wa /\ is_register Wasm qa.
Proof. unfold has_lane, is_register. cbn [register_bits]. repeat apply conj; lia || (vm_compute; discriminate) || (vm_compute; reflexivity). Qed.
Example C65_operations :
  eight_lanes (s_add (simd Avx 32) wa wb) = [1007; 0; 0; -2147483644; 1007; 0; 0; -2147483644] /\
  four_lanes (s_sub (simd Wasm 32) qa qb) = [993; -6; 0; 2147483642] /\ four_lanes (s_neg (simd Msa 32) qa) = [-1000; 3; -2147483648; -2147483647] /\
  eight_lanes (s_lt (simd Avx 32) wa wb) = [0; -1; 0; 0; -1; 0; 0; -1] /\ four_lanes (s_ge (simd Wasm 32) qa qb) = [-1; 0; -1; -1] /\
  four_lanes (s_select (simd Msa 32) (s_eq (simd Msa 32) qa qb) (s_dup (simd Msa 32) 11) qa) = [1000; -3; 11; 2147483647].
Proof. repeat apply conj; vm_compute; reflexivity. Qed.
Example C65_tests : s_any (simd Wasm 32) (s_lt (simd Wasm 32) qa qb) = true /\ s_all (simd Wasm 32) (s_lt (simd Wasm 32) qa qb) = false /\
  s_any (simd Msa 32) (s_gt (simd Msa 32) qb qb) = false /\ s_all (simd Msa 16) (s_eq (simd Msa 16) qb qb) = true /\
  s_any (simd Avx 32) (s_gt (simd Avx 32) wb wb) = true.
Proof. repeat apply conj; vm_compute; reflexivity. Qed.
Example C65_products :
  eight_lanes (s_mul (simd Avx 32) wa wb) = [0; 0; -2147483648; 5; 0; 0; -2147483648; 5] /\
  four_lanes (s_mul (simd Wasm 32) qa qb) = [0; 0; 2147483647; 5] /\ four_lanes (s_mul (simd Msa 32) qa qb) = [0; 0; 2147483647; 5] /\
  four_lanes (s_halfsum (simd Msa 32) qa qb) = [504; 0; -2147483648; 1073741826] /\
  option_map eight_lanes (s_divide (simd Avx 32) wa 1) = Some [500; -2; -1073741824; 1073741824; 4; 2; -1073741824; 3] /\
  option_map four_lanes (s_divide (simd Wasm 32) qa 1) = Some [500; -2; -1073741824; 1073741824] /\
  option_map four_lanes (s_divide (simd Msa 32) qa 1) = Some [500; -2; -1073741824; 1073741824] /\
  option_map four_lanes (s_pot (simd Msa 32) 4 qa) = Some [16000; -48; -2147483648; 2147483647] /\
  option_map four_lanes (s_pot (simd Msa 32) 8 qb) = Some [1792; 768; -2147483648; 1280] /\
  option_map eight_lanes (s_pot (simd Avx 32) 4 wa) = Some [16000; -48; -2147483648; 2147483647; 112; 48; -2147483648; 80].
Proof. repeat apply conj; vm_compute; reflexivity. Qed.
(* exp, tanh and logistic of 16-bit lanes -4, -1, -1/8, 0 and others, 3 integer bits *)
Definition qc : Z := 49152 + 61440 * 2 ^ 16 + 65024 * 2 ^ 32 + 65024 * (2 ^ 64 + 2 ^ 80 + 2 ^ 96 + 2 ^ 112).
Definition lanes8 (v : Z) : list Z := map (fun i => lane 16 i v) [0; 1; 2; 3; 4; 5; 6; 7].
Example C65_functions : lanes8 qc = [-16384; -4096; -512; 0; -512; -512; -512; -512] /\
  option_map lanes8 (v_exp_on_negative_values (vops_of 16 (simd Wasm 16)) 16 3 qc) = Some [600; 12055; 28918; 32767; 28918; 28918; 28918; 28918] /\
  option_map lanes8 (v_tanh (vops_of 16 (simd Msa 16)) 16 3 qc) = Some [-32744; -24964; -4076; 0; -4076; -4076; -4076; -4076] /\
  option_map lanes8 (v_logistic (vops_of 16 (simd Avx 16)) 16 3 qc) = Some [585; 8815; 15359; 16384; 15359; 15359; 15359; 15359].
Proof. repeat apply conj; vm_compute; reflexivity. Qed.
