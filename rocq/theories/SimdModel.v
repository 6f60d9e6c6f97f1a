(* SimdModel.v: model of /repo/fixedpoint/fixedpoint_sse.h and fixedpoint_neon.h,
   and of the templates of fixedpoint.h instantiated with their register types.
   A 128-bit register is the integer 0 <= v < 2^128 of its bits; lane i of width w
   is bits [w*i, w*i+w).  The intrinsics are modelled after Intel's and Arm's
   descriptions of them; they are named after the intrinsic without the type
   suffix, the lane width being an argument. *)
From Verif Require Import Base FixedPointModel.

Definition reg := Z.
Definition lanes (w : Z) : Z := 128 / w.
Definition get (w i : Z) (v : reg) : Z := wrapS w (Z.shiftr v (w * i)).
Definition getU (w i : Z) (v : reg) : Z := wrapU w (Z.shiftr v (w * i)).
Fixpoint pack_n (w : Z) (f : Z -> Z) (n : nat) : reg :=
  match n with O => 0 | S k => pack_n w f k + wrapU w (f (Z.of_nat k)) * 2 ^ (w * Z.of_nat k) end.
Definition pack (w : Z) (f : Z -> Z) : reg := pack_n w f (Z.to_nat (lanes w)).
Definition map1 (w : Z) (f : Z -> Z) (a : reg) : reg := pack w (fun i => f (get w i a)).
Definition map2 (w : Z) (f : Z -> Z -> Z) (a b : reg) : reg := pack w (fun i => f (get w i a) (get w i b)).
Definition ones (b : bool) : Z := if b then -1 else 0.
Definition saturate (w x : Z) : Z := Z.max (int_min w) (Z.min (int_max w) x).

(* ------------------------------------------------------------------ *)
(* SSE intrinsics *)
Definition mm_and (a b : reg) : reg := Z.land a b.
Definition mm_or (a b : reg) : reg := Z.lor a b.
Definition mm_xor (a b : reg) : reg := Z.lxor a b.
Definition mm_andnot (a b : reg) : reg := Z.ldiff b a.       (* (not a) and b *)
Definition mm_testz (a b : reg) : bool := Z.land a b =? 0.
Definition mm_testc (a b : reg) : bool := Z.ldiff b a =? 0.  (* (not a) and b = 0 *)
Definition mm_set1 (w x : Z) : reg := pack w (fun _ => x).
Definition mm_add (w : Z) : reg -> reg -> reg := map2 w Z.add.
Definition mm_sub (w : Z) : reg -> reg -> reg := map2 w Z.sub.
Definition mm_mullo (w : Z) : reg -> reg -> reg := map2 w Z.mul.
Definition mm_sign (w : Z) : reg -> reg -> reg := map2 w (fun a b => if b <? 0 then - a else if b =? 0 then 0 else a).
Definition mm_slli (w : Z) (a : reg) (n : Z) : reg := map1 w (fun x => if n >? w - 1 then 0 else Z.shiftl x n) a.
Definition mm_srai (w : Z) (a : reg) (n : Z) : reg := map1 w (fun x => Z.shiftr x (Z.min n (w - 1))) a.
Definition mm_cmpeq (w : Z) : reg -> reg -> reg := map2 w (fun a b => ones (a =? b)).
Definition mm_cmpgt (w : Z) : reg -> reg -> reg := map2 w (fun a b => ones (a >? b)).
Definition mm_cmplt (w : Z) : reg -> reg -> reg := map2 w (fun a b => ones (a <? b)).
Definition mm_adds (w : Z) : reg -> reg -> reg := map2 w (fun a b => saturate w (a + b)).
Definition mm_avg_epu16 (a b : reg) : reg := pack 16 (fun i => Z.shiftr (getU 16 i a + getU 16 i b + 1) 1).
Definition mm_mulhrs_epi16 : reg -> reg -> reg := map2 16 (fun a b => Z.shiftr (Z.shiftr (a * b) 14 + 1) 1).
Definition mm_srli_si128 (a : reg) (bytes : Z) : reg := Z.shiftr a (8 * bytes).
Definition mm_mul_epi32 (a b : reg) : reg := pack 64 (fun i => get 32 (2 * i) a * get 32 (2 * i) b).
Definition mm_blend_epi16 (a b : reg) (imm : Z) : reg := pack 16 (fun i => if Z.testbit imm i then get 16 i b else get 16 i a).

(* fixedpoint_sse.h; w = 32 for __m128i, w = 16 for int16x8_m128i *)
Definition sse_BitAnd : reg -> reg -> reg := mm_and.      (* 58-66 *)
Definition sse_BitOr : reg -> reg -> reg := mm_or.        (* 68-76 *)
Definition sse_BitXor : reg -> reg -> reg := mm_xor.      (* 78-86 *)
Definition sse_BitNot (w : Z) (a : reg) : reg := mm_andnot a (mm_set1 w (-1)).   (* 88-96 *)
Definition sse_Add (w : Z) : reg -> reg -> reg := mm_add w.     (* 98-106 *)
Definition sse_Mul (w : Z) : reg -> reg -> reg := mm_mullo w.   (* 108-116 *)
Definition sse_Sub (w : Z) : reg -> reg -> reg := mm_sub w.     (* 118-126 *)
Definition sse_Neg (w : Z) (a : reg) : reg := mm_sign w a (mm_set1 w (-1)).      (* 128-136 *)
Definition sse_ShiftLeft (w : Z) (a : reg) (offset : Z) : reg := mm_slli w a offset.    (* 138-146 *)
Definition sse_ShiftRight (w : Z) (a : reg) (offset : Z) : reg := mm_srai w a offset.   (* 148-156 *)
(* 158-172 *)
Definition sse_SelectUsingMask (if_mask then_val else_val : reg) : reg :=
  mm_or (mm_and if_mask then_val) (mm_andnot if_mask else_val).
(* 174-253 *)
Definition sse_MaskIfEqual (w : Z) : reg -> reg -> reg := mm_cmpeq w.
Definition sse_MaskIfNotEqual (w : Z) (a b : reg) : reg := sse_BitNot w (sse_MaskIfEqual w a b).
Definition sse_MaskIfZero (w : Z) (a : reg) : reg := sse_MaskIfEqual w a (mm_set1 w 0).
Definition sse_MaskIfNonZero (w : Z) (a : reg) : reg := sse_MaskIfNotEqual w a (mm_set1 w 0).
Definition sse_MaskIfGreaterThan (w : Z) : reg -> reg -> reg := mm_cmpgt w.
Definition sse_MaskIfLessThan (w : Z) : reg -> reg -> reg := mm_cmplt w.
Definition sse_MaskIfGreaterThanOrEqual (w : Z) (a b : reg) : reg := sse_BitNot w (sse_MaskIfLessThan w a b).
Definition sse_MaskIfLessThanOrEqual (w : Z) (a b : reg) : reg := sse_BitNot w (sse_MaskIfGreaterThan w a b).
(* 255-279 *)
Definition sse_All (a : reg) : bool := mm_testc a a.
Definition sse_Any (a : reg) : bool := negb (mm_testz a a).
(* 281-306 *)
Definition sse_RoundingHalfSum32 (a b : reg) : reg :=
  let one := mm_set1 32 1 in
  let sign_bit_mask := mm_set1 32 2147483648 in
  let sum := sse_Add 32 a b in
  let rounded_half_sum := mm_srai 32 (sse_Add 32 sum one) 1 in
  let overflow := sse_BitAnd (sse_BitAnd (sse_BitXor a rounded_half_sum) (sse_BitXor b rounded_half_sum)) sign_bit_mask in
  sse_BitXor rounded_half_sum overflow.
(* 308-318 *)
Definition sse_RoundingHalfSum16 (a b : reg) : reg :=
  let constant_neg_32768 := mm_set1 16 (-32768) in
  let a_unsigned := mm_sub 16 a constant_neg_32768 in
  let b_unsigned := mm_sub 16 b constant_neg_32768 in
  mm_add 16 (mm_avg_epu16 a_unsigned b_unsigned) constant_neg_32768.
(* 320-356 *)
Definition sse_SaturatingRoundingDoublingHighMul32 (a b : reg) : reg :=
  let min := mm_set1 32 (-2147483648) in
  let saturation_mask := sse_BitAnd (sse_MaskIfEqual 32 a b) (sse_MaskIfEqual 32 a min) in
  let a1_a3 := mm_srli_si128 a 4 in
  let b1_b3 := mm_srli_si128 b 4 in
  let a0b0_a2b2 := mm_mul_epi32 a b in
  let a1b1_a3b3 := mm_mul_epi32 a1_a3 b1_b3 in
  let nudge := mm_set1 64 1073741824 in
  let a0b0_a2b2_rounded := mm_add 64 a0b0_a2b2 nudge in
  let a1b1_a3b3_rounded := mm_add 64 a1b1_a3b3 nudge in
  let a0b0_a2b2_rounded_2x := mm_slli 64 a0b0_a2b2_rounded 1 in
  let a1b1_a3b3_rounded_2x := mm_slli 64 a1b1_a3b3_rounded 1 in
  let result := mm_blend_epi16 (mm_srli_si128 a0b0_a2b2_rounded_2x 4) a1b1_a3b3_rounded_2x 204 in
  sse_SelectUsingMask saturation_mask min result.
(* 358-369 *)
Definition sse_SaturatingRoundingDoublingHighMul16 (a b : reg) : reg :=
  let result_unsaturated := mm_mulhrs_epi16 a b in
  let saturation_mask := mm_cmpeq 16 result_unsaturated (mm_set1 16 32768) in
  mm_xor result_unsaturated saturation_mask.

(* ------------------------------------------------------------------ *)
(* NEON intrinsics *)
Definition vdupq_n (w x : Z) : reg := pack w (fun _ => x).
Definition veor (a b : reg) : reg := Z.lxor a b.
Definition vand (a b : reg) : reg := Z.land a b.
Definition vorr (a b : reg) : reg := Z.lor a b.
Definition vbsl (mask a b : reg) : reg := Z.lor (Z.land mask a) (Z.ldiff b mask).
Definition vadd (w : Z) : reg -> reg -> reg := map2 w Z.add.
Definition vsub (w : Z) : reg -> reg -> reg := map2 w Z.sub.
Definition vneg (w : Z) : reg -> reg := map1 w Z.opp.
(* VSHL, VRSHL: the shift is the signed low byte of the lane; negative shifts go
   right, VRSHL adding half a unit, in unbounded precision *)
Definition vshl (w : Z) : reg -> reg -> reg := map2 w (fun x n => Z.shiftl x (wrapS 8 n)).
Definition vrshl (w : Z) : reg -> reg -> reg :=
  map2 w (fun x n => let s := wrapS 8 n in if s >=? 0 then Z.shiftl x s else Z.shiftr (x + 2 ^ (- s - 1)) (- s)).
Definition vshr_n (w : Z) (a : reg) (n : Z) : reg := map1 w (fun x => Z.shiftr x n) a.
Definition vrshr_n (w : Z) (a : reg) (n : Z) : reg := map1 w (fun x => Z.shiftr (x + 2 ^ (n - 1)) n) a.
Definition vqshl_n (w : Z) (a : reg) (n : Z) : reg := map1 w (fun x => saturate w (Z.shiftl x n)) a.
Definition vqadd (w : Z) : reg -> reg -> reg := map2 w (fun a b => saturate w (a + b)).
Definition vceq (w : Z) : reg -> reg -> reg := map2 w (fun a b => ones (a =? b)).
Definition vcgt (w : Z) : reg -> reg -> reg := map2 w (fun a b => ones (a >? b)).
Definition vcge (w : Z) : reg -> reg -> reg := map2 w (fun a b => ones (a >=? b)).
Definition vclt (w : Z) : reg -> reg -> reg := map2 w (fun a b => ones (a <? b)).
Definition vcle (w : Z) : reg -> reg -> reg := map2 w (fun a b => ones (a <=? b)).
Definition vtst (w : Z) : reg -> reg -> reg := map2 w (fun a b => ones (negb (Z.land a b =? 0))).
Definition vrhadd (w : Z) : reg -> reg -> reg := map2 w (fun a b => Z.shiftr (a + b + 1) 1).
Definition vqrdmulh (w : Z) : reg -> reg -> reg := map2 w (fun a b => saturate w (Z.shiftr (2 * a * b + 2 ^ (w - 1)) w)).
Definition vext (w : Z) (a b : reg) (n : Z) : reg :=
  pack w (fun i => if i + n <? lanes w then get w (i + n) a else get w (i + n - lanes w) b).

(* fixedpoint_neon.h; w = 32 for int32x4_t, w = 16 for int16x8_t *)
Definition neon_BitAnd : reg -> reg -> reg := vand.     (* 37-45 *)
Definition neon_BitOr : reg -> reg -> reg := vorr.      (* 47-55 *)
Definition neon_BitXor : reg -> reg -> reg := veor.     (* 57-65 *)
Definition neon_BitNot (w : Z) (a : reg) : reg := veor a (vdupq_n w (-1)).     (* 67-75 *)
Definition neon_Add (w : Z) : reg -> reg -> reg := vadd w.   (* 77-85 *)
Definition neon_Sub (w : Z) : reg -> reg -> reg := vsub w.   (* 87-95 *)
Definition neon_Neg (w : Z) : reg -> reg := vneg w.          (* 97-105 *)
Definition neon_ShiftLeft (w : Z) (a : reg) (offset : Z) : reg := vshl w a (vdupq_n w offset).       (* 107-115 *)
Definition neon_ShiftLeftV (w : Z) (a offset : reg) : reg := vshl w a offset.                        (* 117-125 *)
Definition neon_ShiftRight (w : Z) (a : reg) (offset : Z) : reg := vshl w a (vdupq_n w (- offset)).  (* 127-135 *)
Definition neon_SelectUsingMask (m t e : reg) : reg := vbsl m t e.   (* 137-147 *)
(* 149-227 *)
Definition neon_MaskIfEqual (w : Z) : reg -> reg -> reg := vceq w.
Definition neon_MaskIfNotEqual (w : Z) (a b : reg) : reg := neon_BitNot w (neon_MaskIfEqual w a b).
Definition neon_MaskIfZero (w : Z) (a : reg) : reg := neon_MaskIfEqual w a (vdupq_n w 0).
Definition neon_MaskIfNonZero (w : Z) (a : reg) : reg := vtst w a a.
Definition neon_MaskIfGreaterThan (w : Z) : reg -> reg -> reg := vcgt w.
Definition neon_MaskIfGreaterThanOrEqual (w : Z) : reg -> reg -> reg := vcge w.
Definition neon_MaskIfLessThan (w : Z) : reg -> reg -> reg := vclt w.
Definition neon_MaskIfLessThanOrEqual (w : Z) : reg -> reg -> reg := vcle w.
(* 229-257: a bool is true for any nonzero lane value *)
Definition neon_All (w : Z) (a : reg) : bool :=
  let a := vand a (vext w a a 1) in
  let a := vand a (vext w a a 2) in
  let a := if w =? 16 then vand a (vext w a a 4) else a in
  negb (get w 0 a =? 0).
Definition neon_Any (w : Z) (a : reg) : bool :=
  let a := vorr a (vext w a a 1) in
  let a := vorr a (vext w a a 2) in
  let a := if w =? 16 then vorr a (vext w a a 4) else a in
  negb (get w 0 a =? 0).
Definition neon_RoundingHalfSum (w : Z) : reg -> reg -> reg := vrhadd w.                            (* 259-267 *)
Definition neon_SaturatingRoundingDoublingHighMul (w : Z) : reg -> reg -> reg := vqrdmulh w.        (* 269-277 *)
(* 279-293 *)
Definition neon_RoundingDivideByPOT (w : Z) (x : reg) (exponent : Z) : reg :=
  let shift_vec := vdupq_n w (- exponent) in
  let fixup := vshr_n w (vand x shift_vec) (w - 1) in
  let fixed_up_x := vqadd w x fixup in
  vrshl w fixed_up_x shift_vec.
(* 295-309: one exponent per lane *)
Definition neon_RoundingDivideByPOTV (w : Z) (x exponent : reg) : reg :=
  let shift_vec := vneg w exponent in
  let fixup := vshr_n w (vand x shift_vec) (w - 1) in
  let fixed_up_x := vqadd w x fixup in
  vrshl w fixed_up_x shift_vec.
(* 311-337 and fixedpoint.h 392-395 *)
Definition neon_SaturatingRoundingMultiplyByPOT (w exponent : Z) (x : reg) : reg :=
  if exponent =? 0 then x
  else if exponent >? 0 then vqshl_n w x exponent
  else
    let fixup := vshr_n w x (w - 1) in
    let fixed_up_x := vqadd w x fixup in
    vrshr_n w fixed_up_x (- exponent).

(* ------------------------------------------------------------------ *)
(* the operations the functions of fixedpoint.h use, for a register type *)
Record vops := mk_vops {
  v_dup : Z -> reg; v_and : reg -> reg -> reg; v_add : reg -> reg -> reg; v_sub : reg -> reg -> reg; v_neg : reg -> reg;
  v_select : reg -> reg -> reg -> reg; v_nonzero : reg -> reg; v_zero : reg -> reg;
  v_gt : reg -> reg -> reg; v_lt : reg -> reg -> reg; v_halfsum : reg -> reg -> reg; v_addsat : reg -> reg -> reg;
  v_mul : reg -> reg -> reg; v_pot : Z -> reg -> option reg }.

(* fixedpoint.h 367-379 with SSE registers; Dup truncates to the lane width *)
Definition sse_RoundingDivideByPOT (w : Z) (x : reg) (exponent : Z) : option reg :=
  check (0 <=? exponent); check (exponent <=? 31);
  let mask := mm_set1 w (2 ^ exponent - 1) in
  let zero := mm_set1 w 0 in
  let one := mm_set1 w 1 in
  let remainder := sse_BitAnd x mask in
  let threshold := sse_Add w (sse_ShiftRight w mask 1) (sse_BitAnd (sse_MaskIfLessThan w x zero) one) in
  Some (sse_Add w (sse_ShiftRight w x exponent) (sse_BitAnd (sse_MaskIfGreaterThan w remainder threshold) one)).
(* fixedpoint.h 385-429 with SSE registers; the threshold is computed in int *)
Definition sse_SaturatingRoundingMultiplyByPOT (w exponent : Z) (x : reg) : option reg :=
  if exponent =? 0 then Some x
  else if exponent >? 0 then
    let* p := one_shl_int Trap (w - 1 - exponent) in
    let threshold := p - 1 in
    let positive_mask := sse_MaskIfGreaterThan w x (mm_set1 w threshold) in
    let negative_mask := sse_MaskIfLessThan w x (mm_set1 w (- threshold)) in
    let result := sse_ShiftLeft w x exponent in
    let result := sse_SelectUsingMask positive_mask (mm_set1 w (int_max w)) result in
    Some (sse_SelectUsingMask negative_mask (mm_set1 w (int_min w)) result)
  else sse_RoundingDivideByPOT w x (- exponent).

(* fixedpoint.h 284-300: SaturatingAdd for 16 bits (sse 380-384, neon 349-353) *)
Definition sse (w : Z) : vops :=
  mk_vops (mm_set1 w) sse_BitAnd (sse_Add w) (sse_Sub w) (sse_Neg w) sse_SelectUsingMask (sse_MaskIfNonZero w) (sse_MaskIfZero w)
    (sse_MaskIfGreaterThan w) (sse_MaskIfLessThan w)
    (if w =? 16 then sse_RoundingHalfSum16 else sse_RoundingHalfSum32)
    (if w =? 16 then mm_adds 16 else sse_Add w)
    (if w =? 16 then sse_SaturatingRoundingDoublingHighMul16 else sse_SaturatingRoundingDoublingHighMul32)
    (sse_SaturatingRoundingMultiplyByPOT w).
Definition neon (w : Z) : vops :=
  mk_vops (vdupq_n w) neon_BitAnd (neon_Add w) (neon_Sub w) (neon_Neg w) neon_SelectUsingMask (neon_MaskIfNonZero w) (neon_MaskIfZero w)
    (neon_MaskIfGreaterThan w) (neon_MaskIfLessThan w) (neon_RoundingHalfSum w)
    (if w =? 16 then vqadd 16 else neon_Add w)
    (neon_SaturatingRoundingDoublingHighMul w)
    (fun e x => Some (neon_SaturatingRoundingMultiplyByPOT w e x)).

(* fixedpoint.h 730-898 with a register as raw type.  Constants are computed with
   the scalar code and duplicated; the line numbers are those of FixedPointModel.v *)
Section Vector.
Variable o : vops.
Variable w : Z.
Definition vRescale (ib_src ib_dst : Z) (x : reg) : option reg := v_pot o (ib_src - ib_dst) x.
Definition v_exp_on_interval (a : reg) : option reg :=
  let* constant_term := RescaleConstantInitializer Trap w 1895147668 in
  let* constant_1_over_3 := RescaleConstantInitializer Trap w 715827883 in
  let* eighth := ConstantPOT w 0 (-3) in
  let x := v_add o a (v_dup o eighth) in
  let x2 := v_mul o x x in
  let x3 := v_mul o x2 x in
  let x4 := v_mul o x2 x2 in
  let* x4_over_4 := v_pot o (-2) x4 in
  let s := v_add o x4_over_4 x3 in
  let t := v_add o (v_mul o s (v_dup o constant_1_over_3)) x2 in
  let* u := v_pot o (-1) t in
  let v := v_add o x u in
  Some (v_addsat o (v_dup o constant_term) (v_mul o (v_dup o constant_term) v)).
Definition v_exp_barrel_shifter (ib : Z) (remainder : reg) (exponent multiplier : Z) (result : reg) : option reg :=
  if ib >? exponent then
    let* kMultiplier := RescaleConstantInitializer Trap w multiplier in
    let* bit := one_shl_int Trap (kFractionalBits w ib + exponent) in
    Some (v_select o (v_nonzero o (v_and o remainder (v_dup o bit))) (v_mul o result (v_dup o kMultiplier)) result)
  else Some result.
Definition v_exp_on_negative_values (ib : Z) (a : reg) : option reg :=
  let* kOneQuarter := ConstantPOT w ib (-2) in
  let mask := v_sub o (v_dup o kOneQuarter) (v_dup o 1) in
  let a_mod := v_sub o (v_and o a mask) (v_dup o kOneQuarter) in
  let* r0 := vRescale ib 0 a_mod in
  let* result := v_exp_on_interval r0 in
  let remainder := v_sub o a_mod a in
  let* result := v_exp_barrel_shifter ib remainder (-2) 1672461947 result in
  let* result := v_exp_barrel_shifter ib remainder (-1) 1302514674 result in
  let* result := v_exp_barrel_shifter ib remainder 0 790015084 result in
  let* result := v_exp_barrel_shifter ib remainder 1 290630308 result in
  let* result := v_exp_barrel_shifter ib remainder 2 39332535 result in
  let* result := v_exp_barrel_shifter ib remainder 3 720401 result in
  let* result := v_exp_barrel_shifter ib remainder 4 242 result in
  let* result :=
    if ib >? 5 then
      let* p := one_shl_int Trap (36 - ib) in
      let* clamp := RescaleConstantInitializer Trap w (- p) in
      Some (v_select o (v_lt o a (v_dup o clamp)) (v_dup o 0) result)
    else Some result in
  Some (v_select o (v_zero o a) (v_dup o (One w 0)) result).
Definition v_newton_step (half_denominator x : reg) : option reg :=
  let hx := v_mul o half_denominator x in
  let one_minus := v_sub o (v_dup o (One w 2)) hx in
  let* d := vRescale 4 2 (v_mul o x one_minus) in
  Some (v_add o x d).
Definition v_newton_reciprocal (a : reg) : option reg :=
  let half_denominator := v_halfsum o a (v_dup o (One w 0)) in
  let* constant_48_over_17 := RescaleConstantInitializer Trap w 1515870810 in
  let* constant_neg_32_over_17 := RescaleConstantInitializer Trap w (-1010580540) in
  let x := v_add o (v_dup o constant_48_over_17) (v_mul o half_denominator (v_dup o constant_neg_32_over_17)) in
  let* x := v_newton_step half_denominator x in
  let* x := v_newton_step half_denominator x in
  v_newton_step half_denominator x.
Definition v_one_minus_x_over_one_plus_x (a : reg) : option reg :=
  let* x := v_newton_reciprocal a in
  vRescale 2 0 (v_sub o x (v_dup o (One w 2))).
Definition v_one_over_one_plus_x (a : reg) : option reg :=
  let* x := v_newton_reciprocal a in
  vRescale 1 0 x.
Definition v_tanh (ib : Z) (a : reg) : option reg :=
  let mask_if_negative := v_lt o a (v_dup o 0) in
  let mask_if_zero := v_zero o a in
  let n := v_select o mask_if_negative a (v_neg o a) in
  let* e := v_exp_on_negative_values (ib + 1) n in
  let* t := v_one_minus_x_over_one_plus_x e in
  Some (v_select o mask_if_zero (v_dup o 0) (v_select o mask_if_negative (v_neg o t) t)).
Definition v_logistic (ib : Z) (a : reg) : option reg :=
  let mask_if_positive := v_gt o a (v_dup o 0) in
  let mask_if_zero := v_zero o a in
  let abs_input := v_select o mask_if_positive a (v_neg o a) in
  let* e := v_exp_on_negative_values ib (v_neg o abs_input) in
  let* result_if_positive := v_one_over_one_plus_x e in
  let result_if_negative := v_sub o (v_dup o (One w 0)) result_if_positive in
  let* one_half := RescaleConstantInitializer Trap w (2 ^ 30) in
  Some (v_select o mask_if_zero (v_dup o one_half) (v_select o mask_if_positive result_if_positive result_if_negative)).
End Vector.
