(* Props_Simd.v: property theorems C46, about the SSE and NEON register operations
   of fixedpoint_sse.h and fixedpoint_neon.h (SimdModel.v) against the scalar
   operations of fixedpoint.h (FixedPointModel.v).  lane w i v is the signed value of
   lane i of register v (SimdSpec.v); rnd_away, nearest_away and nearest_up are
   defined in FixedPointSpec.v. *)
From Verif Require Import Base FixedPointModel FixedPointSpec SimdModel SimdSpec SimdFull.

(* C46: bit operations *)
Theorem C46_bit_operations :
  forall w i a b, a_lane w i ->
  lane w i (sse_BitAnd a b) = BitAnd (lane w i a) (lane w i b) /\ lane w i (neon_BitAnd a b) = BitAnd (lane w i a) (lane w i b) /\
  lane w i (sse_BitOr a b) = BitOr (lane w i a) (lane w i b) /\ lane w i (neon_BitOr a b) = BitOr (lane w i a) (lane w i b) /\
  lane w i (sse_BitXor a b) = BitXor (lane w i a) (lane w i b) /\ lane w i (neon_BitXor a b) = BitXor (lane w i a) (lane w i b) /\
  lane w i (sse_BitNot w a) = BitNot (lane w i a) /\ lane w i (neon_BitNot w a) = BitNot (lane w i a).
Proof. exact f_bits. Qed.
Print Assumptions C46_bit_operations.
(* sums, differences, negations and products wrap like the scalar ones *)
Theorem C46_arithmetic :
  forall w i a b, a_lane w i ->
  Add Wrap w (lane w i a) (lane w i b) = Some (lane w i (sse_Add w a b)) /\ Add Wrap w (lane w i a) (lane w i b) = Some (lane w i (neon_Add w a b)) /\
  Sub Wrap w (lane w i a) (lane w i b) = Some (lane w i (sse_Sub w a b)) /\ Sub Wrap w (lane w i a) (lane w i b) = Some (lane w i (neon_Sub w a b)) /\
  Neg Wrap w (lane w i a) = Some (lane w i (sse_Neg w a)) /\ Neg Wrap w (lane w i a) = Some (lane w i (neon_Neg w a)) /\
  Mul Wrap w (lane w i a) (lane w i b) = Some (lane w i (sse_Mul w a b)).
Proof. exact f_arith. Qed.
Print Assumptions C46_arithmetic.
Theorem C46_shift_right :
  forall w i a n, a_lane w i -> 0 <= n <= 31 ->
  ShiftRight (lane w i a) n = Some (lane w i (sse_ShiftRight w a n)) /\ ShiftRight (lane w i a) n = Some (lane w i (neon_ShiftRight w a n)).
Proof. exact f_shr. Qed.
Print Assumptions C46_shift_right.
(* shifts to the left agree when the result fits *)
Theorem C46_shift_left :
  forall w i a n, a_lane w i -> 0 <= n <= 30 ->
  - 2 ^ (w - 1) <= lane w i a * 2 ^ n <= 2 ^ (w - 1) - 1 ->
  ShiftLeft Trap w (lane w i a) n = Some (lane w i (sse_ShiftLeft w a n)) /\ ShiftLeft Trap w (lane w i a) n = Some (lane w i (neon_ShiftLeft w a n)).
Proof. exact f_shl. Qed.
Print Assumptions C46_shift_left.
(* they wrap where the scalar one saturates *)
Theorem C46_shift_left_refuted :
  exists a, a_register a /\ (forall i, 0 <= i < 4 -> lane 32 i a = 1073741824) /\
  ShiftLeft Trap 32 1073741824 1 = Some 2147483647 /\ forall i, 0 <= i < 4 ->
  lane 32 i (sse_ShiftLeft 32 a 1) = -2147483648 /\ lane 32 i (neon_ShiftLeft 32 a 1) = -2147483648.
Proof. exact f_shl_refuted. Qed.
Print Assumptions C46_shift_left_refuted.
Theorem C46_masks :
  forall w i a b, a_lane w i ->
  let x := lane w i a in let y := lane w i b in
  (lane w i (sse_MaskIfEqual w a b) = MaskIfEqual x y /\ lane w i (neon_MaskIfEqual w a b) = MaskIfEqual x y) /\
  (lane w i (sse_MaskIfNotEqual w a b) = MaskIfNotEqual x y /\ lane w i (neon_MaskIfNotEqual w a b) = MaskIfNotEqual x y) /\
  (lane w i (sse_MaskIfGreaterThan w a b) = MaskIfGreaterThan x y /\ lane w i (neon_MaskIfGreaterThan w a b) = MaskIfGreaterThan x y) /\
  (lane w i (sse_MaskIfGreaterThanOrEqual w a b) = MaskIfGreaterThanOrEqual x y /\ lane w i (neon_MaskIfGreaterThanOrEqual w a b) = MaskIfGreaterThanOrEqual x y) /\
  (lane w i (sse_MaskIfLessThan w a b) = MaskIfLessThan x y /\ lane w i (neon_MaskIfLessThan w a b) = MaskIfLessThan x y) /\
  (lane w i (sse_MaskIfLessThanOrEqual w a b) = MaskIfLessThanOrEqual x y /\ lane w i (neon_MaskIfLessThanOrEqual w a b) = MaskIfLessThanOrEqual x y) /\
  (lane w i (sse_MaskIfZero w a) = MaskIfZero x /\ lane w i (neon_MaskIfZero w a) = MaskIfZero x) /\
  (lane w i (sse_MaskIfNonZero w a) = MaskIfNonZero x /\ lane w i (neon_MaskIfNonZero w a) = MaskIfNonZero x).
Proof. exact f_masks. Qed.
Print Assumptions C46_masks.
Theorem C46_select :
  forall w i m a b, a_lane w i ->
  lane w i (sse_SelectUsingMask m a b) = SelectUsingMask (lane w i m) (lane w i a) (lane w i b) /\
  lane w i (neon_SelectUsingMask m a b) = SelectUsingMask (lane w i m) (lane w i a) (lane w i b).
Proof. exact f_select. Qed.
Print Assumptions C46_select.
Theorem C46_any :
  forall w a, w = 16 \/ w = 32 -> a_register a ->
  (sse_Any a = true <-> exists i, a_lane w i /\ lane w i a <> 0) /\ (neon_Any w a = true <-> exists i, a_lane w i /\ lane w i a <> 0).
Proof. exact f_any. Qed.
Print Assumptions C46_any.
(* All on NEON, for masks *)
Theorem C46_all :
  forall w a, w = 16 \/ w = 32 -> a_mask w a -> (neon_All w a = true <-> forall i, a_lane w i -> lane w i a = -1).
Proof. exact f_all. Qed.
Print Assumptions C46_all.
(* All on SSE holds of every register, even of the mask with no lane set *)
Theorem C46_sse_all_refuted :
  exists a, a_register a /\ a_mask 32 a /\ a_mask 16 a /\ sse_All a = true /\
  (forall i, a_lane 32 i -> lane 32 i a = 0) /\ forall i, a_lane 16 i -> lane 16 i a = 0.
Proof. exact f_sse_all_refuted. Qed.
Print Assumptions C46_sse_all_refuted.
(* the half sums round ties up; the scalar one agrees unless the sum is negative and odd *)
Theorem C46_half_sum :
  forall w i a b, a_lane w i ->
  let h := (lane w i a + lane w i b + 1) / 2 in
  lane w i (if w =? 16 then sse_RoundingHalfSum16 a b else sse_RoundingHalfSum32 a b) = h /\ lane w i (neon_RoundingHalfSum w a b) = h /\
  nearest_up h (lane w i a + lane w i b) 2 /\
  (0 <= lane w i a + lane w i b \/ Z.even (lane w i a + lane w i b) = true -> RoundingHalfSum w (lane w i a) (lane w i b) = h).
Proof. exact f_half. Qed.
Print Assumptions C46_half_sum.
Theorem C46_half_sum_refuted :
  exists a b, a_register a /\ a_register b /\ forall i, 0 <= i < 4 ->
  RoundingHalfSum 32 (lane 32 i a) (lane 32 i b) = -2 /\ lane 32 i (sse_RoundingHalfSum32 a b) = -1 /\ lane 32 i (neon_RoundingHalfSum 32 a b) = -1.
Proof. exact f_half_refuted. Qed.
Print Assumptions C46_half_sum_refuted.
Theorem C46_saturating_add :
  forall i a b, 0 <= i < 8 ->
  lane 16 i (mm_adds 16 a b) = SaturatingAdd 16 (lane 16 i a) (lane 16 i b) /\ lane 16 i (vqadd 16 a b) = SaturatingAdd 16 (lane 16 i a) (lane 16 i b).
Proof. exact f_satadd. Qed.
Print Assumptions C46_saturating_add.
(* the doubling high product, except on SSE for the minimum squared *)
Theorem C46_high_mul :
  forall w i a b, a_lane w i ->
  let p := SaturatingRoundingDoublingHighMul w (lane w i a) (lane w i b) in
  lane w i (neon_SaturatingRoundingDoublingHighMul w a b) = p /\
  (w = 16 -> lane w i (sse_SaturatingRoundingDoublingHighMul16 a b) = p) /\
  (w = 32 -> ~ (lane w i a = - 2 ^ 31 /\ lane w i b = - 2 ^ 31) -> lane w i (sse_SaturatingRoundingDoublingHighMul32 a b) = p).
Proof. exact f_mul. Qed.
Print Assumptions C46_high_mul.
(* there it returns the minimum where the scalar one returns the maximum *)
Theorem C46_sse_high_mul_refuted :
  exists a, a_register a /\ forall i, 0 <= i < 4 -> lane 32 i a = - 2 ^ 31 /\
  SaturatingRoundingDoublingHighMul 32 (- 2 ^ 31) (- 2 ^ 31) = 2 ^ 31 - 1 /\ lane 32 i (sse_SaturatingRoundingDoublingHighMul32 a a) = - 2 ^ 31.
Proof. exact f_mul_refuted. Qed.
Print Assumptions C46_sse_high_mul_refuted.
(* division by a power of two is the nearest integer, ties away from zero, everywhere *)
Theorem C46_rounding_divide :
  forall w i x e, a_lane w i -> 0 <= e <= w - 1 ->
  lane w i (neon_RoundingDivideByPOT w x e) = rnd_away (lane w i x) (2 ^ e) /\
  (exists r, sse_RoundingDivideByPOT w x e = Some r /\ lane w i r = rnd_away (lane w i x) (2 ^ e)) /\
  RoundingDivideByPOT Trap w (lane w i x) e = Some (rnd_away (lane w i x) (2 ^ e)) /\
  nearest_away (rnd_away (lane w i x) (2 ^ e)) (lane w i x) (2 ^ e).
Proof. exact f_rdpot. Qed.
Print Assumptions C46_rounding_divide.
(* on SSE it is the scalar function for every exponent *)
Theorem C46_sse_rounding_divide :
  forall w i x e r, a_lane w i -> sse_RoundingDivideByPOT w x e = Some r ->
  RoundingDivideByPOT Wrap w (lane w i x) e = Some (lane w i r).
Proof. exact f_sse_rdpot_all. Qed.
Print Assumptions C46_sse_rounding_divide.
(* one exponent per lane (NEON) *)
Theorem C46_rounding_divide_by_lane :
  forall w i x e, a_lane w i -> 0 <= lane w i e <= w - 1 ->
  lane w i (neon_RoundingDivideByPOTV w x e) = rnd_away (lane w i x) (2 ^ lane w i e).
Proof. exact f_rdpotv. Qed.
Print Assumptions C46_rounding_divide_by_lane.
(* for 16 bits and exponent 16 the saturated fix-up loses the tie *)
Theorem C46_neon_rounding_divide_refuted :
  exists x, a_register x /\ forall i, 0 <= i < 8 ->
  ~ nearest_away (lane 16 i (neon_RoundingDivideByPOT 16 x 16)) (lane 16 i x) (2 ^ 16).
Proof. exact f_rdpot_refuted. Qed.
Print Assumptions C46_neon_rounding_divide_refuted.
Theorem C46_multiply_by_pot :
  forall w i e x, a_lane w i -> - (w - 1) <= e <= w - 1 -> e <= 30 ->
  SaturatingRoundingMultiplyByPOT Trap w e (lane w i x) = Some (lane w i (neon_SaturatingRoundingMultiplyByPOT w e x)) /\
  exists r, sse_SaturatingRoundingMultiplyByPOT w e x = Some r /\ SaturatingRoundingMultiplyByPOT Trap w e (lane w i x) = Some (lane w i r).
Proof. exact f_srm. Qed.
Print Assumptions C46_multiply_by_pot.
(* the transcendental functions on registers give the scalar results on every lane
   of their domain, whatever the other lanes are *)
Theorem C46_exp :
  forall w ib, w = 16 \/ w = 32 -> 0 <= ib <= w - 3 -> forall i a, a_lane w i -> lane w i a <= 0 ->
  (exists v, v_exp_on_negative_values (sse w) w ib a = Some v /\ exp_on_negative_values Trap w ib (lane w i a) = Some (lane w i v)) /\
  (exists v, v_exp_on_negative_values (neon w) w ib a = Some v /\ exp_on_negative_values Trap w ib (lane w i a) = Some (lane w i v)).
Proof. exact f_exp. Qed.
Print Assumptions C46_exp.
Theorem C46_one_over_one_plus_x :
  forall w, w = 16 \/ w = 32 -> forall i a, a_lane w i -> 0 <= lane w i a ->
  (exists v, v_one_over_one_plus_x (sse w) w a = Some v /\ one_over_one_plus_x Trap w (lane w i a) = Some (lane w i v)) /\
  (exists v, v_one_over_one_plus_x (neon w) w a = Some v /\ one_over_one_plus_x Trap w (lane w i a) = Some (lane w i v)).
Proof. exact (fun w W => proj1 (f_one_over w W)). Qed.
Print Assumptions C46_one_over_one_plus_x.
Theorem C46_one_minus_x_over_one_plus_x :
  forall w, w = 16 \/ w = 32 -> forall i a, a_lane w i -> 0 <= lane w i a ->
  (exists v, v_one_minus_x_over_one_plus_x (sse w) w a = Some v /\ one_minus_x_over_one_plus_x Trap w (lane w i a) = Some (lane w i v)) /\
  (exists v, v_one_minus_x_over_one_plus_x (neon w) w a = Some v /\ one_minus_x_over_one_plus_x Trap w (lane w i a) = Some (lane w i v)).
Proof. exact (fun w W => proj2 (f_one_over w W)). Qed.
Print Assumptions C46_one_minus_x_over_one_plus_x.
Theorem C46_tanh :
  forall w ib, w = 16 \/ w = 32 -> 0 <= ib <= w - 4 -> forall i a, a_lane w i -> lane w i a <> - 2 ^ (w - 1) ->
  (exists v, v_tanh (sse w) w ib a = Some v /\ ftanh Trap w ib (lane w i a) = Some (lane w i v)) /\
  (exists v, v_tanh (neon w) w ib a = Some v /\ ftanh Trap w ib (lane w i a) = Some (lane w i v)).
Proof. exact f_tanh. Qed.
Print Assumptions C46_tanh.
Theorem C46_logistic :
  forall w ib, w = 16 \/ w = 32 -> 0 <= ib <= w - 3 -> forall i a, a_lane w i -> lane w i a <> - 2 ^ (w - 1) ->
  (exists v, v_logistic (sse w) w ib a = Some v /\ logistic Trap w ib (lane w i a) = Some (lane w i v)) /\
  (exists v, v_logistic (neon w) w ib a = Some v /\ logistic Trap w ib (lane w i a) = Some (lane w i v)).
Proof. exact f_logistic. Qed.
Print Assumptions C46_logistic.

(* concrete registers: lanes 1000, -3, INT_MIN, INT_MAX and 7, 3, INT_MIN, 5 *)
Definition ra : Z := 1000 + 4294967293 * 2 ^ 32 + 2147483648 * 2 ^ 64 + 2147483647 * 2 ^ 96.
Definition rb : Z := 7 + 3 * 2 ^ 32 + 2147483648 * 2 ^ 64 + 5 * 2 ^ 96.
Definition lanes32 (v : Z) : list Z := [lane 32 0 v; lane 32 1 v; lane 32 2 v; lane 32 3 v].
Definition lanes16 (v : Z) : list Z := [lane 16 0 v; lane 16 1 v; lane 16 2 v; lane 16 3 v; lane 16 4 v; lane 16 5 v; lane 16 6 v; lane 16 7 v].
Example C46_lanes : lanes32 ra = [1000; -3; -2147483648; 2147483647] /\ lanes32 rb = [7; 3; -2147483648; 5] /\
  a_lane 32 2 /\ a_lane 16 7 /\ a_register ra /\ a_register rb.
Proof. split; [vm_compute; reflexivity|]. split; [vm_compute; reflexivity|]. unfold a_lane, a_register. repeat apply conj; lia || (vm_compute; discriminate) || (vm_compute; reflexivity). Qed.
Example C46_wraps : lanes32 (sse_Add 32 ra rb) = [1007; 0; 0; -2147483644] /\ lanes32 (neon_Sub 32 ra rb) = [993; -6; 0; 2147483642] /\
  lanes32 (sse_Neg 32 ra) = [-1000; 3; -2147483648; -2147483647] /\ lanes32 (neon_ShiftRight 32 ra 2) = [250; -1; -536870912; 536870911].
Proof. repeat apply conj; vm_compute; reflexivity. Qed.
Example C46_mask_values : lanes32 (sse_MaskIfGreaterThanOrEqual 32 ra rb) = [-1; 0; -1; -1] /\ lanes32 (neon_MaskIfLessThan 32 ra rb) = [0; -1; 0; 0] /\
  lanes32 (sse_SelectUsingMask (sse_MaskIfEqual 32 ra rb) (mm_set1 32 11) ra) = [1000; -3; 11; 2147483647] /\
  lanes32 (neon_BitNot 32 ra) = [-1001; 2; 2147483647; -2147483648] /\
  neon_Any 32 (neon_MaskIfLessThan 32 ra rb) = true /\ neon_All 32 (neon_MaskIfLessThan 32 ra rb) = false /\ sse_All (sse_MaskIfLessThan 32 ra rb) = true.
Proof. repeat apply conj; vm_compute; reflexivity. Qed.
Example C46_products : lanes32 (sse_SaturatingRoundingDoublingHighMul32 ra rb) = [0; 0; -2147483648; 5] /\
  lanes32 (neon_SaturatingRoundingDoublingHighMul 32 ra rb) = [0; 0; 2147483647; 5] /\
  lanes32 (sse_RoundingHalfSum32 ra rb) = [504; 0; -2147483648; 1073741826] /\
  lanes16 (sse_SaturatingRoundingDoublingHighMul16 (mm_set1 16 (-32768)) (mm_set1 16 (-32768))) = [32767; 32767; 32767; 32767; 32767; 32767; 32767; 32767].
Proof. repeat apply conj; vm_compute; reflexivity. Qed.
Example C46_divides : lanes32 (neon_RoundingDivideByPOT 32 ra 1) = [500; -2; -1073741824; 1073741824] /\
  option_map lanes32 (sse_RoundingDivideByPOT 32 ra 1) = Some [500; -2; -1073741824; 1073741824] /\
  lanes32 (neon_RoundingDivideByPOTV 32 ra (mm_set1 32 3)) = [125; 0; -268435456; 268435456] /\
  option_map lanes32 (sse_SaturatingRoundingMultiplyByPOT 32 4 ra) = Some [16000; -48; -2147483648; 2147483647] /\
  lanes32 (neon_SaturatingRoundingMultiplyByPOT 32 4 ra) = [16000; -48; -2147483648; 2147483647].
Proof. repeat apply conj; vm_compute; reflexivity. Qed.
(* exp, tanh and logistic of 16-bit lanes -4, -1, -1/8, 0 and others, 3 integer bits *)
Definition rc : Z := 49152 + 61440 * 2 ^ 16 + 65024 * 2 ^ 32 + 65024 * (2 ^ 64 + 2 ^ 80 + 2 ^ 96 + 2 ^ 112).
Example C46_functions : lanes16 rc = [-16384; -4096; -512; 0; -512; -512; -512; -512] /\
  option_map lanes16 (v_exp_on_negative_values (sse 16) 16 3 rc) = Some [600; 12055; 28918; 32767; 28918; 28918; 28918; 28918] /\
  option_map lanes16 (v_exp_on_negative_values (neon 16) 16 3 rc) = Some [600; 12055; 28918; 32767; 28918; 28918; 28918; 28918] /\
  option_map lanes16 (v_tanh (sse 16) 16 3 rc) = Some [-32744; -24964; -4076; 0; -4076; -4076; -4076; -4076] /\
  option_map lanes16 (v_logistic (neon 16) 16 3 rc) = Some [585; 8815; 15359; 16384; 15359; 15359; 15359; 15359].
Proof. repeat apply conj; vm_compute; reflexivity. Qed.
