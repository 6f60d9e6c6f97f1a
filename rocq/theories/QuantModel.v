(* QuantModel.v: model of doc/quantization_example.cc: choosing quantization
   parameters, quantizing, dequantizing, and turning a real multiplier into an
   int32 multiplier and a right shift.  float is binary32, double is binary64,
   evaluated without excess precision, as given by SpecFloat of the standard
   library.  None is undefined behaviour or a failed assertion.
   Simplification: std::round followed by a conversion to an integer type is one
   function, std::round being exact on floating point numbers. *)
From Coq Require Import SpecFloat.
From Verif Require Import Base EightBitModel.

(* float and double arithmetic *)
Definition fadd (x y : float) : float := SFadd 24 128 x y.
Definition fsub (x y : float) : float := SFsub 24 128 x y.
Definition fdiv (x y : float) : float := SFdiv 24 128 x y.
Definition dsub (x y : float) : float := SFsub 53 1024 x y.
Definition ddiv (x y : float) : float := SFdiv 53 1024 x y.
(* conversions between the two formats *)
Definition convert (prec emax : Z) (x : float) : float :=
  match x with S754_finite s m e => binary_round prec emax s m e | _ => x end.
Definition to_double (x : float) : float := convert 53 1024 x.
Definition to_float (x : float) : float := convert 24 128 x.
(* conversion of an integer that is not a literal *)
Definition float_of_Z (z : Z) : float := binary_normalize 24 128 z 0 false.
Definition double_of_Z (z : Z) : float := binary_normalize 53 1024 z 0 false.
(* std::min and std::max *)
Definition fmin (a b : float) : float := if SFltb b a then b else a.
Definition fmax (a b : float) : float := if SFltb a b then b else a.
(* std::round, ties away from zero, and the conversion to an integer; undefined
   for infinities and NaN *)
Definition round_to_int (x : float) : option Z :=
  match x with
  | S754_zero _ => Some 0
  | S754_finite s m e =>
      let n := if 0 <=? e then Zpos m * 2 ^ e else (2 * Zpos m + 2 ^ (- e)) / (2 * 2 ^ (- e)) in
      Some (if s then - n else n)
  | _ => None
  end.
(* static_cast<std::uint8_t>, static_cast<std::int64_t> *)
Definition to_uint8 (z : Z) : option Z := if (0 <=? z) && (z <=? 255) then Some z else None.
Definition to_int64 (z : Z) : option Z := if (- 2 ^ 63 <=? z) && (z <=? 2 ^ 63 - 1) then Some z else None.

(* 43-53; the matrix as a nonempty list of entries, the first being m(0, 0) *)
Definition FindMinMax (first : float) (l : list float) : float * float :=
  fold_left (fun mm v => (fmin (fst mm) v, fmax (snd mm) v)) l (first, first).

(* 64-67 *)
Record qparams := mk_qparams { q_scale : float; q_zero_point : Z }.

(* 71-112 *)
Definition ChooseQuantizationParams (min max : float) : option qparams :=
  let min := fmin min (float_of_Z 0) in
  let max := fmax max (float_of_Z 0) in
  let qmin := float_of_Z 0 in
  let qmax := float_of_Z 255 in
  let scale := to_double (fdiv (fsub max min) (fsub qmax qmin)) in
  let initial_zero_point := dsub (to_double qmin) (ddiv (to_double min) scale) in
  let* nudged_zero_point :=
    if SFltb initial_zero_point (to_double qmin) then Some 0
    else if SFltb (to_double qmax) initial_zero_point then Some 255
    else let* r := round_to_int initial_zero_point in to_uint8 r in
  Some (mk_qparams (to_float scale) nudged_zero_point).

(* 137-140 *)
Definition quantize_one (q : qparams) (real_val : float) : option Z :=
  let transformed_val := fadd (float_of_Z (q_zero_point q)) (fdiv real_val (q_scale q)) in
  let clamped_val := fmax (float_of_Z 0) (fmin (float_of_Z 255) transformed_val) in
  let* r := round_to_int clamped_val in to_uint8 r.
(* 133-142; the destination has the size of the source *)
Fixpoint Quantize (q : qparams) (src : list float) : option (list Z) :=
  match src with
  | [] => Some []
  | x :: t => let* v := quantize_one q x in let* r := Quantize q t in Some (v :: r)
  end.
(* 148-149 *)
Definition dequantize_one (q : qparams) (quantized_val : Z) : float :=
  fmul (q_scale q) (float_of_Z (quantized_val - q_zero_point q)).
(* 144-151 *)
Definition Dequantize (q : qparams) (src : list Z) : list float := map (dequantize_one q) src.

(* 220-223: the loop; fuel bounds the number of iterations *)
Fixpoint double_until_half (fuel : nat) (real_multiplier : float) (s : Z) : option (float * Z) :=
  if SFltb real_multiplier (S754_finite false 8388608 (-24)) then
    match fuel with
    | O => None
    | S f => double_until_half f (fmul real_multiplier (float_of_Z 2)) (s + 1)
    end
  else Some (real_multiplier, s).
(* 210-241; asserts tells whether assert is compiled in *)
Definition QuantizeMultiplierSmallerThanOne (asserts : bool) (fuel : nat) (real_multiplier : float) : option (Z * Z) :=
  check (negb asserts || SFltb (float_of_Z 0) real_multiplier);
  check (negb asserts || SFltb real_multiplier (float_of_Z 1));
  let* (r, s) := double_until_half fuel real_multiplier 0 in
  let* q := round_to_int (fmul r (float_of_Z (2 ^ 31))) in
  let* q := to_int64 q in
  check (negb asserts || (q <=? 2 ^ 31));
  let '(q, s) := if q =? 2 ^ 31 then (Z.quot q 2, s - 1) else (q, s) in
  check (negb asserts || (0 <=? s));
  check (negb asserts || (q <=? 2 ^ 31 - 1));
  Some (wrapS 32 q, s).

(* 336-341: the multiplier used by the example *)
Definition real_multiplier (lhs rhs result : qparams) : float :=
  fdiv (fmul (q_scale lhs) (q_scale rhs)) (q_scale result).

(* 117-131: FloatMatrixMultiplication, one entry; no fused multiply-add *)
Definition float_dot (row col : list float) : float :=
  fold_left (fun acc p => fadd acc (fmul (fst p) (snd p))) (combine row col) (float_of_Z 0).
(* column-major storage *)
Definition stored_row (rows i : nat) (l : list float) (depth : nat) : list float :=
  map (fun j => nth (i + j * rows) l S754_nan) (seq 0 depth).
Definition stored_col (depth j : nat) (l : list float) : list float := firstn depth (skipn (j * depth) l).
Definition FloatMatrixMultiplication (rows depth cols : nat) (lhs rhs : list float) : list float :=
  flat_map (fun k => map (fun i => float_dot (stored_row rows i lhs depth) (stored_col depth k rhs)) (seq 0 rows)) (seq 0 cols).
(* 243-341: the offline part of main(); the matrices are not empty *)
Record offline_result := mk_offline {
  o_lhs : qparams; o_rhs : qparams; o_result : qparams;
  o_uint8_lhs : list Z; o_uint8_rhs : list Z; o_multiplier : Z; o_right_shift : Z }.
Definition offline (asserts : bool) (fuel rows depth cols : nat) (lhs rhs : list float) : option offline_result :=
  let reference := FloatMatrixMultiplication rows depth cols lhs rhs in
  let params l := let mm := FindMinMax (nth 0 l S754_nan) l in ChooseQuantizationParams (fst mm) (snd mm) in
  let* q1 := params lhs in
  let* q2 := params rhs in
  let* q3 := params reference in
  let* l8 := Quantize q1 lhs in
  let* r8 := Quantize q2 rhs in
  let* (mult, shift) := QuantizeMultiplierSmallerThanOne asserts fuel (real_multiplier q1 q2 q3) in
  Some (mk_offline q1 q2 q3 l8 r8 mult shift).
