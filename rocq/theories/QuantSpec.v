(* QuantSpec.v: vocabulary for the properties of the quantization example. *)
From Coq Require Import SpecFloat QArith Qabs Qminmax.
From Verif Require Import Base FloatSpec QuantModel.

(* a finite float, a finite double *)
Definition is_float (f : spec_float) : Prop := valid_binary 24 128 f = true /\ is_fin f = true.
Definition is_double (f : spec_float) : Prop := valid_binary 53 1024 f = true /\ is_fin f = true.
(* n is x rounded to an integer, halves away from zero *)
Definition rounds_away (x : Q) (n : Z) : Prop :=
  (Qabs (inject_Z n - x) <= 1 # 2 /\ (Qabs (inject_Z n - x) == 1 # 2 -> Qabs x <= Qabs (inject_Z n)))%Q.

(* the exact real number entry (r, c) of a product of float matrices *)
Fixpoint sumQ (f : Z -> Q) (n : nat) : Q :=
  match n with O => 0%Q | S k => (sumQ f k + f (Z.of_nat k))%Q end.
Definition real_product (LF RF : Z -> Z -> spec_float) (depth r c : Z) : Q :=
  sumQ (fun d => (valQ (LF r d) * valQ (RF d c))%Q) (Z.to_nat depth).
(* the interval ChooseQuantizationParams works with *)
Definition range_lo (min : spec_float) : Q := Qmin (valQ min) 0.
Definition range_hi (max : spec_float) : Q := Qmax (valQ max) 0.
(* a range that is neither too small nor too large for float arithmetic *)
Definition range_ok (min max : spec_float) : Prop :=
  is_float min /\ is_float max /\
  (pow2 (-118) <= range_hi max - range_lo min)%Q /\ (range_hi max - range_lo min <= pow2 127)%Q.
Definition in_range (min max x : spec_float) : Prop :=
  is_float x /\ (range_lo min <= valQ x)%Q /\ (valQ x <= range_hi max)%Q.

(* the calls made by the example for one matrix: parameters q chosen from a range
   that contains every entry of F, and C the matrix of codes; A bounds the
   entries *)
Definition quantized_from (min max : spec_float) (q : qparams) (F : Z -> Z -> spec_float) (C : Z -> Z -> Z) (rows cols : Z) (A : Q) : Prop :=
  range_ok min max /\ ChooseQuantizationParams min max = Some q /\
  forall r c, 0 <= r < rows -> 0 <= c < cols ->
    in_range min max (F r c) /\ (Qabs (valQ (F r c)) <= A)%Q /\ quantize_one q (F r c) = Some (C r c).
(* the largest real error of a code, and of a product of codes *)
Definition code_bound (q : qparams) : Q := (((1 # 2) + (1 # 8192)) * valQ (q_scale q))%Q.
Definition product_bound (depth : Z) (A B : Q) (q1 q2 : qparams) : Q :=
  (inject_Z depth * (A * code_bound q2 + B * code_bound q1 + code_bound q1 * code_bound q2))%Q.
