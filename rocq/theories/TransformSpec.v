(* TransformSpec.v: what the transforms of meta/ are to compute, stated with
   rational numbers and the binary32 arithmetic of SpecFloat, without reference to
   the instructions. *)
From Coq Require Import SpecFloat QArith Qabs.
From Verif Require Import Base FloatSpec.
#[local] Open Scope Z_scope.

(* z is the integer nearest to q, the even one of two *)
Definition rounds_even (q : Q) (z : Z) : Prop :=
  (Qabs (q - inject_Z z) <= 1 # 2)%Q /\ (Qabs (q - inject_Z z) == 1 # 2 -> Z.even z = true)%Q.
(* z is q without its fractional part, as in a C++ conversion *)
Definition truncates (q : Q) (z : Z) : Prop :=
  (0 <= q -> inject_Z z <= q /\ q < inject_Z (z + 1))%Q /\ (q <= 0 -> q <= inject_Z z /\ inject_Z (z - 1) < q)%Q.
Definition clamp (lo hi z : Z) : Z := if z <? lo then lo else if hi <? z then hi else z.
(* the float x as an integer in lo..hi; NaN gives 0 *)
Definition integer_of (rounds : Q -> Z -> Prop) (lo hi : Z) (x : spec_float) (b : Z) : Prop :=
  match x with
  | S754_nan => b = 0
  | S754_infinity true => b = lo
  | S754_infinity false => b = hi
  | _ => exists z, rounds (valQ x) z /\ b = clamp lo hi z
  end.

Local Notation add := (SFadd 24 128).
Local Notation sub := (SFsub 24 128).
Local Notation mul := (SFmul 24 128).
Definition of_int (z : Z) : spec_float := binary_normalize 24 128 z 0 false.
(* the formulas of meta/test_transform_correctness.cc 74-163, but for requantize
   with the two minimums subtracted from each other first, and for biasadd without
   the offsets of input and bias *)
Definition requantize_expr (imin ioff iscale omin ooff oscale : spec_float) (z : Z) : spec_float :=
  add (mul (add (mul (sub (of_int z) ioff) iscale) (sub imin omin)) oscale) ooff.
Definition quantize_expr (min off scale x : spec_float) : spec_float := add (mul (sub x min) scale) off.
Definition dequantize_expr (min off scale : spec_float) (z : Z) : spec_float := add (mul (sub (of_int z) off) scale) min.
Definition biasadd_expr (imin iscale bmin bscale omin ooff oscale : spec_float) (z b : Z) : spec_float :=
  add (mul (sub (add (add (mul (of_int z) iscale) imin) (add (mul (of_int b) bscale) bmin)) omin) oscale) ooff.

(* what verify_requantize and verify_biasadd of that test compute *)
Definition test_requantize_expr (imin ioff iscale omin ooff oscale : spec_float) (z : Z) : spec_float :=
  add (mul (sub (add (mul (sub (of_int z) ioff) iscale) imin) omin) oscale) ooff.
Definition test_biasadd_expr (imin ioff iscale bmin boff bscale omin ooff oscale : spec_float) (z b : Z) : spec_float :=
  add (mul (sub (add (add (mul (sub (of_int z) ioff) iscale) imin) (add (mul (sub (of_int b) boff) bscale) bmin)) omin) oscale) ooff.

(* x 0, x 1, ..., x (n - 1) can be read from ip on *)
Definition readable {A} (input : Z -> option A) (ip n : Z) (x : Z -> A) : Prop := forall i, 0 <= i < n -> input (ip + i) = Some (x i).
(* a memory after the stores of the list, in its order *)
Definition write_all {V} (log : list (Z * V)) (m : Z -> option V) : Z -> option V :=
  fold_left (fun m av => fun a => if a =? fst av then Some (snd av) else m a) log m.

(* 32-bit ARM: arithmetic in which numbers below 2^-126 count as zero, those of a
   product before rounding *)
Definition tiny (q : Q) : bool := negb (Qle_bool (pow2 (- 126)) (Qabs q)).
Definition to_zero (x : spec_float) : spec_float :=
  match x with S754_finite s _ _ => if tiny (valQ x) then S754_zero s else x | _ => x end.
Definition add32 (x y : spec_float) : spec_float := to_zero (add (to_zero x) (to_zero y)).
Definition sub32 (x y : spec_float) : spec_float := to_zero (sub (to_zero x) (to_zero y)).
Definition mul32 (x y : spec_float) : spec_float :=
  match to_zero x, to_zero y with
  | S754_finite s _ _, S754_finite t _ _ => if tiny (valQ (to_zero x) * valQ (to_zero y)) then S754_zero (xorb s t) else mul (to_zero x) (to_zero y)
  | _, _ => mul (to_zero x) (to_zero y)
  end.
(* requantize without the offset of the output *)
Definition requantize32_expr (imin ioff iscale omin oscale : spec_float) (z : Z) : spec_float :=
  mul32 (add32 (mul32 (sub32 (of_int z) ioff) iscale) (sub32 imin omin)) oscale.
Definition quantize32_expr (min off scale x : spec_float) : spec_float := add32 (mul32 (sub32 x min) scale) off.
Definition dequantize32_expr (min off scale : spec_float) (z : Z) : spec_float := add32 (mul32 (sub32 (of_int z) off) scale) min.
Definition biasadd32_expr (imin iscale bmin bscale omin ooff oscale : spec_float) (z b : Z) : spec_float :=
  add32 (mul32 (sub32 (add32 (add32 (mul32 (of_int z) iscale) imin) (add32 (mul32 (of_int b) bscale) bmin)) omin) oscale) ooff.
