(* Props_FixedPoint.v: property theorems C20-C26, about the model of the scalar
   fixed-point primitives (FixedPointModel.v).  w is the bit width of the raw
   type, ovf mode m says what a signed overflow does: Trap = undefined (None),
   Wrap = two's complement.  Quantifying over m proves both readings. *)
From Verif Require Import Base FixedPointModel FixedPointSpec FixedPointProofs.
From Coq Require Import QArith Qabs.
Local Open Scope Z_scope.

(* C20: high half of the doubled product, rounded to nearest with ties up,
   the only saturating pair is (min,min); no intermediate value leaves the
   double-width type. *)
Theorem C20_saturating_rounding_doubling_high_mul : forall w a b,
  (w = 16 \/ w = 32) -> fits w a -> fits w b ->
  let r := SaturatingRoundingDoublingHighMul w a b in
  fits w r /\
  (a = - 2 ^ (w - 1) /\ b = - 2 ^ (w - 1) -> r = 2 ^ (w - 1) - 1) /\
  (~ (a = - 2 ^ (w - 1) /\ b = - 2 ^ (w - 1)) -> nearest_up r (a * b) (2 ^ (w - 1))) /\
  (fits (2 * w) (a * b) /\ fits (2 * w) (a * b + 2 ^ (w - 2)) /\
   fits (2 * w) (a * b + (1 - 2 ^ (w - 2)))).
Proof. exact srdhm_full. Qed.
Print Assumptions C20_saturating_rounding_doubling_high_mul.
Example C20_example : fits 32 (-2147483648) /\ fits 32 1 /\
  SaturatingRoundingDoublingHighMul 32 (-2147483648) 1 = -1 /\
  SaturatingRoundingDoublingHighMul 32 (-1073741824) 1 = 0 (* tie -1/2 rounds up *) /\
  SaturatingRoundingDoublingHighMul 32 1073741824 1 = 1.
Proof. unfold fits. repeat split; vm_compute; try reflexivity; discriminate. Qed.

(* C21: rounding right shift, ties away from zero, for exponents 0..w-1. *)
Theorem C21_rounding_divide_by_pot : forall m w x e,
  (w = 16 \/ w = 32) -> fits w x -> 0 <= e <= w - 1 ->
  exists q, RoundingDivideByPOT m w x e = Some q /\ nearest_away q x (2 ^ e) /\ fits w q.
Proof. exact rdpot_full. Qed.
Print Assumptions C21_rounding_divide_by_pot.
Example C21_example : fits 32 (-5) /\ RoundingDivideByPOT Trap 32 (-5) 1 = Some (-3) /\
  RoundingDivideByPOT Trap 32 (-2147483648) 31 = Some (-1).
Proof. unfold fits. repeat split; vm_compute; try reflexivity; discriminate. Qed.

(* The function's own asserts accept every exponent in 0..31, but for int16
   exponents of 16 and more give a wrong result. *)
Theorem C21_int16_large_exponent_refuted :
  exists x e q, fits 16 x /\ 0 <= e <= 31 /\
    RoundingDivideByPOT Wrap 16 x e = Some q /\ ~ nearest q x (2 ^ e).
Proof. exact rdpot16_large_refuted. Qed.
Print Assumptions C21_int16_large_exponent_refuted.

(* C22: saturating left shift / rounding right shift by a power of two. *)
Theorem C22_saturating_rounding_multiply_by_pot : forall m w e x,
  (w = 16 \/ w = 32) -> fits w x -> - (w - 1) <= e <= w - 1 -> e <= 30 ->
  exists r, SaturatingRoundingMultiplyByPOT m w e x = Some r /\ fits w r /\
    (0 <= e -> r = clamp_int w (x * 2 ^ e)) /\
    (e < 0 -> nearest_away r x (2 ^ (- e))).
Proof. exact srmpot_full. Qed.
Print Assumptions C22_saturating_rounding_multiply_by_pot.

Theorem C22_rescale : forall m w src dst x,
  (w = 16 \/ w = 32) -> fits w x -> 0 <= src < w -> 0 <= dst < w -> src - dst <= 30 ->
  exists r, Rescale m w src dst x = Some r /\ fits w r /\
    (dst <= src -> r = clamp_int w (x * 2 ^ (src - dst))) /\
    (src < dst -> nearest_away r x (2 ^ (dst - src))).
Proof. exact rescale_full. Qed.
Print Assumptions C22_rescale.
Example C22_example : SaturatingRoundingMultiplyByPOT Trap 16 3 5000 = Some 32767 /\
  SaturatingRoundingMultiplyByPOT Trap 16 3 (-4096) = Some (-32768) /\
  SaturatingRoundingMultiplyByPOT Trap 32 (-4) 24 = Some 2 /\
  Rescale Trap 32 5 3 (-123456) = Some (-493824).
Proof. repeat split; vm_compute; reflexivity. Qed.

(* The remaining exponent the static types allow, 31 for int32 (rescaling from
   31 integer bits to none), is undefined: it evaluates (1 << 31) on int. *)
Theorem C22_shift_by_31_refuted : exists x, fits 32 x /\ Rescale Trap 32 31 0 x = None.
Proof. exact rescale31_refuted. Qed.
Print Assumptions C22_shift_by_31_refuted.

(* C23: rounding half sum: nearest, ties away from zero; equal to the
   "round up" halving add of the vector instruction sets except on negative
   odd sums. *)
Theorem C23_rounding_half_sum : forall w a b,
  (w = 16 \/ w = 32) -> fits w a -> fits w b ->
  nearest_away (RoundingHalfSum w a b) (a + b) 2 /\ fits w (RoundingHalfSum w a b) /\
  (RoundingHalfSum w a b = (a + b + 1) / 2 <-> ~ (a + b < 0 /\ (a + b) mod 2 = 1)).
Proof. exact rhs_full. Qed.
Print Assumptions C23_rounding_half_sum.
Example C23_example : RoundingHalfSum 32 2147483647 2147483647 = 2147483647 /\
  RoundingHalfSum 32 (-3) 0 = -2 /\ RoundingHalfSum 32 3 0 = 2.
Proof. repeat split; vm_compute; reflexivity. Qed.

Theorem C23_equals_vector_halving_add_refuted : exists a b, fits 32 a /\ fits 32 b /\
  RoundingHalfSum 32 a b <> (a + b + 1) / 2.
Proof. exact rhs_vrhadd_refuted. Qed.
Print Assumptions C23_equals_vector_halving_add_refuted.

(* C24: saturating addition clamps the mathematical sum. *)
Theorem C24_saturating_add : forall w a b,
  (w = 8 \/ w = 16) -> SaturatingAdd w a b = clamp_int w (a + b).
Proof. exact sat_add_full. Qed.
Print Assumptions C24_saturating_add.

Theorem C24_add_saturating_if_16bit : forall m a b,
  (AddSaturatingIf16Bit m 16 a b = Some (clamp_int 16 (a + b))) /\
  (fits 32 (a + b) -> AddSaturatingIf16Bit m 32 a b = Some (a + b)).
Proof. exact add_sat_if16_full. Qed.
Print Assumptions C24_add_saturating_if_16bit.
Example C24_example : SaturatingAdd 16 32767 1 = 32767 /\ SaturatingAdd 16 (-32768) (-1) = -32768 /\
  SaturatingAdd 16 5 (-9) = -4.
Proof. repeat split; vm_compute; reflexivity. Qed.

(* C25: masks are all-ones or all-zeros according to the predicate; select is
   bitwise. *)
Theorem C25_masks : forall a b,
  MaskIfNonZero a = (if Z.eq_dec a 0 then 0 else -1) /\
  MaskIfZero a = (if Z.eq_dec a 0 then -1 else 0) /\
  (MaskIfEqual a b = -1 /\ a = b \/ MaskIfEqual a b = 0 /\ a <> b) /\
  (MaskIfNotEqual a b = -1 /\ a <> b \/ MaskIfNotEqual a b = 0 /\ a = b) /\
  (MaskIfGreaterThan a b = -1 /\ a > b \/ MaskIfGreaterThan a b = 0 /\ ~ a > b) /\
  (MaskIfGreaterThanOrEqual a b = -1 /\ a >= b \/ MaskIfGreaterThanOrEqual a b = 0 /\ ~ a >= b) /\
  (MaskIfLessThan a b = -1 /\ a < b \/ MaskIfLessThan a b = 0 /\ ~ a < b) /\
  (MaskIfLessThanOrEqual a b = -1 /\ a <= b \/ MaskIfLessThanOrEqual a b = 0 /\ ~ a <= b).
Proof. exact masks_full. Qed.
Print Assumptions C25_masks.

Theorem C25_select_using_mask : forall m t e,
  (m = -1 -> SelectUsingMask m t e = t) /\ (m = 0 -> SelectUsingMask m t e = e) /\
  (forall n, 0 <= n -> Z.testbit (SelectUsingMask m t e) n =
                       if Z.testbit m n then Z.testbit t n else Z.testbit e n).
Proof. exact select_full. Qed.
Print Assumptions C25_select_using_mask.
Example C25_example : SelectUsingMask (MaskIfLessThan 3 7) 11 22 = 11 /\
  SelectUsingMask (MaskIfLessThan 7 3) 11 22 = 22 /\ SelectUsingMask 12 10 5 = 9.
Proof. repeat split; vm_compute; reflexivity. Qed.

(* C26: fixed-point multiplication is within half a unit in the last place of
   the real product, multiplying by a power of two is exact, ConstantPOT and
   One are the numbers they claim to be. *)
Theorem C26_fixed_point_mul : forall w iba ibb a b,
  (w = 16 \/ w = 32) -> 0 <= iba -> 0 <= ibb -> fits w a -> fits w b ->
  ~ (a = - 2 ^ (w - 1) /\ b = - 2 ^ (w - 1)) ->
  (Qabs (fpvalue w (iba + ibb) (FMul w a b) - fpvalue w iba a * fpvalue w ibb b)
   <= (1 # 2) * ulp w (iba + ibb))%Q.
Proof. exact fmul_value. Qed.
Print Assumptions C26_fixed_point_mul.

Theorem C26_exact_mul_by_pot : forall w ib e a, 0 < w -> 0 <= ib -> 0 <= ib + e ->
  (fpvalue w (e + ib) (ExactMulByPot a) == fpvalue w ib a * (2 ^ e))%Q.
Proof. exact exact_mul_value. Qed.
Print Assumptions C26_exact_mul_by_pot.

Theorem C26_constant_pot : forall w ib e r, (w = 16 \/ w = 32) -> 0 <= ib < w ->
  ConstantPOT w ib e = Some r -> kFractionalBits w ib + e <= w - 2 ->
  (fpvalue w ib r == 2 ^ e)%Q /\ fits w r.
Proof. exact constant_pot_value. Qed.
Print Assumptions C26_constant_pot.

Theorem C26_one : forall w ib, (w = 16 \/ w = 32) -> 0 <= ib < w ->
  (1 <= ib -> (fpvalue w ib (One w ib) == 1)%Q) /\
  (ib = 0 -> (fpvalue w ib (One w ib) == 1 - ulp w 0)%Q) /\ fits w (One w ib).
Proof. exact one_value. Qed.
Print Assumptions C26_one.
Example C26_example : (fpvalue 32 5 67108864 == 1)%Q /\ One 32 5 = 67108864 /\
  ConstantPOT 32 0 (-3) = Some 268435456 /\
  (fpvalue 32 2 (FMul 32 1610612736 1073741824) == (3 # 2))%Q.
Proof. repeat split; vm_compute; reflexivity. Qed.
