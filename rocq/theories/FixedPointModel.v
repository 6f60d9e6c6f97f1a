(* FixedPointModel.v: model of /repo/fixedpoint/fixedpoint.h for scalar raw
   types.  [w] is the width in bits of the raw type (16 or 32; 8 for
   SaturatingAdd).  Raw values are Z in [int_min w, int_max w]. *)
From Verif Require Import Base.

(* fixedpoint.h 68-90: plain bit operations, on two's complement values *)
Definition BitAnd (a b : Z) : Z := Z.land a b.
Definition BitOr (a b : Z) : Z := Z.lor a b.
Definition BitXor (a b : Z) : Z := Z.lxor a b.
Definition BitNot (a : Z) : Z := Z.lnot a.

(* fixedpoint.h 92-114: overflow is undefined for int32; for int16 the C++
   result is the truncation (mode Wrap), mode Trap asks for no overflow. *)
Definition Add (m : ovf) (w a b : Z) : option Z := norm m w (a + b).
Definition Mul (m : ovf) (w a b : Z) : option Z := norm m w (a * b).
Definition Sub (m : ovf) (w a b : Z) : option Z := norm m w (a - b).
Definition Neg (m : ovf) (w a : Z) : option Z := norm m w (- a).

(* the int expression (1 << offset), 1 an int: offset 31 is undefined before
   C++14 (and INT_MIN afterwards), offset outside 0..31 is undefined *)
Definition one_shl_int (m : ovf) (offset : Z) : option Z :=
  if (0 <=? offset) && (offset <=? 31) then norm m 32 (2 ^ offset) else None.

(* fixedpoint.h 125-135 *)
Definition ShiftLeft (m : ovf) (w a offset : Z) : option Z :=
  let* p := one_shl_int m offset in
  let wide_shifted := a * p in
  Some (if wide_shifted <? int_min w then int_min w
        else if wide_shifted >? int_max w then int_max w
        else wide_shifted).

(* fixedpoint.h 140-143: the operand is promoted to int (32 bits), shifting by
   a negative or >= 32 amount is undefined *)
Definition ShiftRight (a offset : Z) : option Z :=
  if (0 <=? offset) && (offset <? 32) then Some (Z.shiftr a offset) else None.

(* fixedpoint.h 148-152 *)
Definition SelectUsingMask (if_mask then_val else_val : Z) : Z :=
  BitXor (BitAnd if_mask then_val) (BitAnd (BitNot if_mask) else_val).

(* fixedpoint.h 156-209; C++ booleans convert to 0/1 *)
Definition b2z (b : bool) : Z := if b then 1 else 0.
Definition MaskIfNonZero (a : Z) : Z := if a =? 0 then 0 else BitNot 0.
Definition MaskIfZero (a : Z) : Z := MaskIfNonZero (b2z (a =? 0)).
Definition MaskIfEqual (a b : Z) : Z := MaskIfNonZero (b2z (a =? b)).
Definition MaskIfNotEqual (a b : Z) : Z := MaskIfNonZero (b2z (negb (a =? b))).
Definition MaskIfGreaterThan (a b : Z) : Z := MaskIfNonZero (b2z (a >? b)).
Definition MaskIfGreaterThanOrEqual (a b : Z) : Z := MaskIfNonZero (b2z (a >=? b)).
Definition MaskIfLessThan (a b : Z) : Z := MaskIfNonZero (b2z (a <? b)).
Definition MaskIfLessThanOrEqual (a b : Z) : Z := MaskIfNonZero (b2z (a <=? b)).

(* fixedpoint.h 214-225, scalar *)
Definition All (a : Z) : bool := negb (a =? 0).
Definition Any (a : Z) : bool := negb (a =? 0).

(* fixedpoint.h 236-252: computed in the double-width type (never overflows
   there), truncating division, then narrowed *)
Definition RoundingHalfSum (w a b : Z) : Z :=
  let sum := a + b in
  let sign := if sum >=? 0 then 1 else -1 in
  wrapS w (Z.quot (sum + sign) 2).

(* fixedpoint.h 262-280 (w = 16, 8) *)
Definition SaturatingAdd (w a b : Z) : Z :=
  wrapS w (Z.min (int_max w) (Z.max (int_min w) (a + b))).

(* fixedpoint.h 284-300: sizeof(ScalarType) == 2 *)
Definition AddSaturatingIf16Bit (m : ovf) (w a b : Z) : option Z :=
  if w =? 16 then Some (SaturatingAdd w a b) else Add m w a b.

(* fixedpoint.h 339-363 (w = 32, 16): the product fits the double-width type *)
Definition SaturatingRoundingDoublingHighMul (w a b : Z) : Z :=
  let overflow := (a =? b) && (a =? int_min w) in
  let ab := a * b in
  let nudge := if ab >=? 0 then 2 ^ (w - 2) else 1 - 2 ^ (w - 2) in
  let ab_x2_high := wrapS w (Z.quot (ab + nudge) (2 ^ (w - 1))) in
  if overflow then int_max w else ab_x2_high.

(* fixedpoint.h 367-379; Dup converts (1ll << exponent) - 1 to the raw type *)
Definition RoundingDivideByPOT (m : ovf) (w x exponent : Z) : option Z :=
  check (0 <=? exponent); check (exponent <=? 31);
  let mask := wrapS w (2 ^ exponent - 1) in
  let remainder := BitAnd x mask in
  let* half := ShiftRight mask 1 in
  let* threshold := Add m w half (BitAnd (MaskIfLessThan x 0) 1) in
  let* shifted := ShiftRight x exponent in
  Add m w shifted (BitAnd (MaskIfGreaterThan remainder threshold) 1).

(* fixedpoint.h 385-429 *)
Definition SaturatingRoundingMultiplyByPOT (m : ovf) (w exponent x : Z) : option Z :=
  if exponent =? 0 then Some x
  else if exponent >? 0 then
    let* p := one_shl_int m (w - 1 - exponent) in
    let threshold := p - 1 in
    let positive_mask := MaskIfGreaterThan x (wrapS w threshold) in
    let negative_mask := MaskIfLessThan x (wrapS w (- threshold)) in
    let* result := ShiftLeft m w x exponent in
    let result := SelectUsingMask positive_mask (int_max w) result in
    let result := SelectUsingMask negative_mask (int_min w) result in
    Some result
  else RoundingDivideByPOT m w x (- exponent).

(* ------------------------------------------------------------------ *)
(* class FixedPoint, 460-540: a raw value together with a (static) number of
   integer bits; the model passes the number of integer bits explicitly. *)
Definition kFractionalBits (w ib : Z) : Z := w - 1 - ib.

(* 508-515: static_assert(kOffset < 31) ; shifting by a negative amount is UB *)
Definition ConstantPOT (w ib exponent : Z) : option Z :=
  let kOffset := kFractionalBits w ib + exponent in
  if (0 <=? kOffset) && (kOffset <? 31) then Some (wrapS w (2 ^ kOffset)) else None.

(* 519-524 *)
Definition One (w ib : Z) : Z :=
  if ib =? 0 then int_max w else wrapS w (2 ^ kFractionalBits w ib).

(* 549-556: operator*, result has ib_a + ib_b integer bits *)
Definition FMul (w a b : Z) : Z := SaturatingRoundingDoublingHighMul w a b.

(* 559-565: ExactMulByPot leaves the raw value unchanged *)
Definition ExactMulByPot (a : Z) : Z := a.

(* 678-685 *)
Definition Rescale (m : ovf) (w ib_src ib_dst x : Z) : option Z :=
  SaturatingRoundingMultiplyByPOT m w (ib_src - ib_dst) x.

(* 697-704 *)
Definition RescaleConstantInitializer (m : ovf) (w v : Z) : option Z :=
  let* r := RoundingDivideByPOT m 32 v (32 - w) in Some (wrapS w r).

(* 730-753 *)
Definition exp_on_interval (m : ovf) (w a : Z) : option Z :=
  let* constant_term := RescaleConstantInitializer m w 1895147668 in
  let* constant_1_over_3 := RescaleConstantInitializer m w 715827883 in
  let* eighth := ConstantPOT w 0 (-3) in
  let* x := Add m w a eighth in
  let x2 := FMul w x x in
  let x3 := FMul w x2 x in
  let x4 := FMul w x2 x2 in
  let* x4_over_4 := SaturatingRoundingMultiplyByPOT m w (-2) x4 in
  let* s := Add m w x4_over_4 x3 in
  let* t := Add m w (FMul w s constant_1_over_3) x2 in
  let* u := SaturatingRoundingMultiplyByPOT m w (-1) t in
  let* v := Add m w x u in
  AddSaturatingIf16Bit m w constant_term (FMul w constant_term v).

(* 770-779: one barrel shifter stage *)
Definition exp_barrel_shifter (m : ovf) (w ib remainder : Z)
           (exponent multiplier : Z) (result : Z) : option Z :=
  if ib >? exponent then
    let* kMultiplier := RescaleConstantInitializer m w multiplier in
    let* bit := one_shl_int m (kFractionalBits w ib + exponent) in
    Some (SelectUsingMask (MaskIfNonZero (BitAnd remainder (wrapS w bit)))
                          (FMul w result kMultiplier) result)
  else Some result.

(* 755-801 *)
Definition exp_on_negative_values (m : ovf) (w ib a : Z) : option Z :=
  let* kOneQuarter := ConstantPOT w ib (-2) in
  let* mask := Sub m w kOneQuarter 1 in
  let* a_mod := Sub m w (BitAnd a mask) kOneQuarter in
  let* r0 := Rescale m w ib 0 a_mod in
  let* result := exp_on_interval m w r0 in
  let* remainder := Sub m w a_mod a in
  let* result := exp_barrel_shifter m w ib remainder (-2) 1672461947 result in
  let* result := exp_barrel_shifter m w ib remainder (-1) 1302514674 result in
  let* result := exp_barrel_shifter m w ib remainder 0 790015084 result in
  let* result := exp_barrel_shifter m w ib remainder 1 290630308 result in
  let* result := exp_barrel_shifter m w ib remainder 2 39332535 result in
  let* result := exp_barrel_shifter m w ib remainder 3 720401 result in
  let* result := exp_barrel_shifter m w ib remainder 4 242 result in
  let* result :=
    if ib >? 5 then
      let* p := one_shl_int m (36 - ib) in
      let* clamp := RescaleConstantInitializer m w (- p) in
      Some (SelectUsingMask (MaskIfLessThan a clamp) 0 result)
    else Some result in
  Some (SelectUsingMask (MaskIfZero a) (One w 0) result).

(* 820-825 / 867-872: the shared Newton-Raphson iteration; x : F2 *)
Definition newton_step (m : ovf) (w half_denominator x : Z) : option Z :=
  let hx := FMul w half_denominator x in
  let* one_minus := Sub m w (One w 2) hx in
  let* d := Rescale m w 4 2 (FMul w x one_minus) in
  Add m w x d.

(* 805-822 / 852-872: common prefix of the two functions *)
Definition newton_reciprocal (m : ovf) (w a : Z) : option Z :=
  let half_denominator := RoundingHalfSum w a (One w 0) in
  let* constant_48_over_17 := RescaleConstantInitializer m w 1515870810 in
  let* constant_neg_32_over_17 := RescaleConstantInitializer m w (-1010580540) in
  let* x := Add m w constant_48_over_17 (FMul w half_denominator constant_neg_32_over_17) in
  let* x := newton_step m w half_denominator x in
  let* x := newton_step m w half_denominator x in
  newton_step m w half_denominator x.

(* 805-827 *)
Definition one_minus_x_over_one_plus_x (m : ovf) (w a : Z) : option Z :=
  let* x := newton_reciprocal m w a in
  let* d := Sub m w x (One w 2) in
  Rescale m w 2 0 d.

(* 852-874 *)
Definition one_over_one_plus_x (m : ovf) (w a : Z) : option Z :=
  let* x := newton_reciprocal m w a in
  Rescale m w 1 0 (ExactMulByPot x).

(* 829-835: ExactMulByPot<1> raises the number of integer bits by one *)
Definition neg_tanh_on_negative_values (m : ovf) (w ib a : Z) : option Z :=
  let* e := exp_on_negative_values m w (ib + 1) (ExactMulByPot a) in
  one_minus_x_over_one_plus_x m w e.

(* 837-848 *)
Definition ftanh (m : ovf) (w ib a : Z) : option Z :=
  let mask_if_negative := MaskIfLessThan a 0 in
  let mask_if_zero := MaskIfZero a in
  let* na := Neg m w a in
  let n := SelectUsingMask mask_if_negative a na in
  let* t := neg_tanh_on_negative_values m w ib n in
  let* nt := Neg m w t in
  Some (SelectUsingMask mask_if_zero 0 (SelectUsingMask mask_if_negative nt t)).

(* 876-881 *)
Definition logistic_on_positive_values (m : ovf) (w ib a : Z) : option Z :=
  let* na := Neg m w a in
  let* e := exp_on_negative_values m w ib na in
  one_over_one_plus_x m w e.

(* 883-898 *)
Definition logistic (m : ovf) (w ib a : Z) : option Z :=
  let mask_if_positive := MaskIfGreaterThan a 0 in
  let mask_if_zero := MaskIfZero a in
  let* na := Neg m w a in
  let abs_input := SelectUsingMask mask_if_positive a na in
  let* result_if_positive := logistic_on_positive_values m w ib abs_input in
  let* result_if_negative := Sub m w (One w 0) result_if_positive in
  let* one_half := RescaleConstantInitializer m w (2 ^ 30) in
  Some (SelectUsingMask mask_if_zero one_half
          (SelectUsingMask mask_if_positive result_if_positive result_if_negative)).
