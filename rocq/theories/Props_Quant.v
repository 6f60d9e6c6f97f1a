(* Props_Quant.v: property theorems C42, C43, C50, about doc/quantization_example.cc
   (QuantModel.v).  valQ f is the rational number a finite float stands for;
   is_float, range_ok, in_range, quantized_from, product_bound are defined in
   QuantSpec.v. *)
From Coq Require Import SpecFloat QArith Qabs Qminmax.
From Verif Require Import Base CommonModel PackModel ComputeModel UnpackModel GemmSpec FixedPointSpec OutputModel OutputSpec GemmModel GemmContract GemmExample
  EightBitModel QuantModel FloatSpec QuantSpec QuantProofs QuantProofs3 QuantProofs4 QuantProofs5 QuantProofs6 QuantProofs7 QuantRefuted QuantExample.
#[local] Open Scope Q_scope.

(* C42: every float multiplier in (0,1) is represented exactly *)
Theorem C42_exact_multiplier :
  forall asserts fuel f, is_float f -> 0 < valQ f < 1 -> (148 <= Z.of_nat fuel)%Z ->
  exists mult shift, QuantizeMultiplierSmallerThanOne asserts fuel f = Some (mult, shift) /\
    (2 ^ 30 <= mult < 2 ^ 31)%Z /\ (0 <= shift <= 148)%Z /\ valQ f == inject_Z mult * pow2 (- 31 - shift).
Proof. exact quantize_multiplier. Qed.
Print Assumptions C42_exact_multiplier.
(* ... and from 2^-32 on the output stage configured with it multiplies int32
   accumulators by it, within 3/4 of a unit, and monotonically *)
Theorem C42_output_stage :
  forall m f off fuel, is_float f -> pow2 (-32) <= valQ f -> valQ f < 1 -> (148 <= Z.of_nat fuel)%Z ->
  exists mult shift (g : Z -> Z),
    QuantizeMultiplierSmallerThanOne true fuel f = Some (mult, shift) /\
    (forall x, fits 32 x -> Qabs (inject_Z (g x) - inject_Z x * valQ f) <= 3 # 4) /\
    (forall x y, (x <= y)%Z -> (g x <= g y)%Z) /\
    (forall R C row col h, (0 < R)%Z -> (0 < C)%Z ->
      (forall r c, (0 <= r < R)%Z -> (0 <= c < C)%Z -> fits 32 (h r c) /\ fits 32 (g (h r c) + off)) ->
      stage_eval m (SByFixedPoint mult shift off) (tile R C h) row col = Some (tile R C (fun r c => (g (h r c) + off)%Z))).
Proof. exact output_stage_real. Qed.
Print Assumptions C42_output_stage.
(* below 2^-32 the shift exceeds what the output stage can perform *)
Theorem C42_small_multiplier_refuted :
  exists f mult shift, is_float f /\ 0 < valQ f < 1 /\
  QuantizeMultiplierSmallerThanOne true 148 f = Some (mult, shift) /\
  forall m off, stage_eval m (SByFixedPoint mult shift off) (tile 1 1 (fun _ _ => 0%Z)) 0 0 = None.
Proof. exact small_multiplier_refuted. Qed.
Print Assumptions C42_small_multiplier_refuted.
(* matrices with entries in [-1,1] as the example generates can need a multiplier
   above 1: an assertion fails, and with NDEBUG the multiplier is wrong *)
Theorem C42_below_one_refuted :
  exists lhs rhs o,
  length lhs = 8%nat /\ length rhs = 12%nat /\
  (forall v, In v lhs -> in_unit v) /\ (forall v, In v rhs -> in_unit v) /\
  offline true 148 2 4 3 lhs rhs = None /\
  offline false 148 2 4 3 lhs rhs = Some o /\
  8 <= valQ (real_multiplier (o_lhs o) (o_rhs o) (o_result o)) /\
  inject_Z (o_multiplier o) * pow2 (- 31 - o_right_shift o) <= 1 # 32.
Proof. exact multiplier_above_one_refuted. Qed.
Print Assumptions C42_below_one_refuted.
(* the largest float below 1, the smallest float of all, and a stage *)
Example C42_example :
  QuantizeMultiplierSmallerThanOne true 148 (S754_finite false 16777215 (-24)) = Some (2147483520, 0)%Z /\
  QuantizeMultiplierSmallerThanOne true 148 (S754_finite false 1 (-149)) = Some (2 ^ 30, 148)%Z /\
  QuantizeMultiplierSmallerThanOne true 148 (S754_finite false 13656494 (-30)) = Some (1748031232, 6)%Z /\
  stage_eval Trap (SByFixedPoint 1748031232 6 48) (tile 2 1 (fun r _ => 10000 * r - 5000)%Z) 0 0 =
    Some (tile 2 1 (fun r _ => if (r =? 0)%Z then -16 else 112)%Z).
Proof. vm_compute. repeat split. Qed.

(* C43: the scan finds the smallest and the largest entry *)
Theorem C43_find_min_max :
  forall first l, is_float first -> (forall v, In v l -> is_float v) ->
  let mm := FindMinMax first l in
  In (fst mm) (first :: l) /\ In (snd mm) (first :: l) /\ forall v, In v (first :: l) -> valQ (fst mm) <= valQ v <= valQ (snd mm).
Proof. exact find_min_max. Qed.
Print Assumptions C43_find_min_max.
(* parameters exist, with the zero point in [0,255], unless the range is tiny;
   the scale is a finite float unless the range overflows *)
Theorem C43_parameters :
  forall min max, is_float min -> is_float max ->
  (valQ min < 0 \/ inject_Z 128 * pow2 (-149) <= valQ max) ->
  let R := Qmax (valQ max) 0 - Qmin (valQ min) 0 in
  exists q, ChooseQuantizationParams min max = Some q /\ (0 <= q_zero_point q <= 255)%Z /\
    (R < overflow_threshold 24 128 -> is_float (q_scale q) /\ 0 <= valQ (q_scale q)) /\
    (R < overflow_threshold 24 128 -> inject_Z 128 * pow2 (-149) <= R -> 0 < valQ (q_scale q)).
Proof. exact choose_ok. Qed.
Print Assumptions C43_parameters.
(* exactly for the remaining ranges a NaN is converted to an integer *)
Theorem C43_tiny_ranges_undefined :
  forall min max, is_float min -> is_float max ->
  0 <= valQ min -> valQ max <= inject_Z 127 * pow2 (-149) -> ChooseQuantizationParams min max = None.
Proof. exact choose_undefined. Qed.
Print Assumptions C43_tiny_ranges_undefined.
Theorem C43_every_range_refuted :
  exists min max, is_float min /\ is_float max /\ valQ min <= valQ max /\ 0 < valQ max /\
  ChooseQuantizationParams min max = None.
Proof. exact tiny_range_refuted. Qed.
Print Assumptions C43_every_range_refuted.
(* matrices with entries in [-1,1] whose product is zero have no parameters *)
Theorem C43_zero_product_refuted :
  exists lhs rhs,
  length lhs = 8%nat /\ length rhs = 12%nat /\
  (forall v, In v lhs -> in_unit v) /\ (forall v, In v rhs -> in_unit v) /\
  forall asserts, offline asserts 148 2 4 3 lhs rhs = None.
Proof. exact zero_product_refuted. Qed.
Print Assumptions C43_zero_product_refuted.
(* zero is exact *)
Theorem C43_zero_exact :
  forall q s, is_float (q_scale q) -> 0 < valQ (q_scale q) -> (0 <= q_zero_point q <= 255)%Z ->
  is_float (dequantize_one q (q_zero_point q)) /\ valQ (dequantize_one q (q_zero_point q)) == 0 /\
  quantize_one q (S754_zero s) = Some (q_zero_point q).
Proof. exact zero_exact. Qed.
Print Assumptions C43_zero_exact.
Theorem C43_infinite_scale_refuted :
  exists min max q, is_float min /\ is_float max /\ valQ min < 0 /\ 0 < valQ max /\
  ChooseQuantizationParams min max = Some q /\ q_scale q = S754_infinity false /\
  dequantize_one q (q_zero_point q) = S754_nan.
Proof. exact infinite_scale_refuted. Qed.
Print Assumptions C43_infinite_scale_refuted.
(* the code of any float, infinities and NaN included, is defined and in [0,255] *)
Theorem C43_quantize_total :
  forall q x, valid_binary 24 128 (q_scale q) = true -> (0 <= q_zero_point q <= 255)%Z -> valid_binary 24 128 x = true ->
  exists n, quantize_one q x = Some n /\ (0 <= n <= 255)%Z.
Proof. exact quantize_total. Qed.
Print Assumptions C43_quantize_total.
(* the error of a value in the range is at most (1/2 + 2^-12) scales, and the
   scale is the range over 255 up to 2^-22 *)
Theorem C43_error_bound :
  forall min max x, is_float min -> is_float max -> is_float x ->
  let M := Qmin (valQ min) 0 in let X := Qmax (valQ max) 0 in
  pow2 (-118) <= X - M -> X - M <= pow2 127 -> M <= valQ x -> valQ x <= X ->
  exists q n, ChooseQuantizationParams min max = Some q /\ quantize_one q x = Some n /\
    is_float (q_scale q) /\ Qabs (255 * valQ (q_scale q) - (X - M)) <= (1 # 4194304) * (X - M) /\
    (0 <= q_zero_point q <= 255)%Z /\ (0 <= n <= 255)%Z /\
    is_float (dequantize_one q n) /\
    Qabs (valQ (dequantize_one q n) - valQ x) <= ((1 # 2) + (1 # 4096)) * valQ (q_scale q).
Proof. exact quantization_error. Qed.
Print Assumptions C43_error_bound.
Theorem C43_half_scale_refuted :
  exists min max x q n, is_float min /\ is_float max /\ is_float x /\
  valQ min <= valQ x /\ valQ x <= valQ max /\ ChooseQuantizationParams min max = Some q /\ quantize_one q x = Some n /\
  (1 # 2) * valQ (q_scale q) < Qabs (valQ (dequantize_one q n) - valQ x).
Proof. exact half_scale_refuted. Qed.
Print Assumptions C43_half_scale_refuted.
(* every code survives dequantizing and quantizing again *)
Theorem C43_codes_round_trip :
  forall q n, is_float (q_scale q) -> pow2 (-126) <= valQ (q_scale q) -> valQ (q_scale q) <= pow2 119 ->
  (0 <= q_zero_point q <= 255)%Z -> (0 <= n <= 255)%Z ->
  is_float (dequantize_one q n) /\ quantize_one q (dequantize_one q n) = Some n.
Proof. exact codes_round_trip. Qed.
Print Assumptions C43_codes_round_trip.
Theorem C43_monotone :
  forall q x y n k, is_float (q_scale q) -> 0 < valQ (q_scale q) -> (0 <= q_zero_point q <= 255)%Z ->
  is_float x -> is_float y -> Qabs (valQ x) <= pow2 127 * valQ (q_scale q) -> Qabs (valQ y) <= pow2 127 * valQ (q_scale q) ->
  valQ x <= valQ y -> quantize_one q x = Some n -> quantize_one q y = Some k -> (n <= k)%Z.
Proof. exact quantize_monotone. Qed.
Print Assumptions C43_monotone.
(* the lhs of the example run: range [-1, 7/8], zero point 136; 5/8 has code 221 *)
Example C43_example :
  FindMinMax (float_of_Z 0) qx_lhs = (float_of_Z (-1), fdiv (float_of_Z 7) (float_of_Z 8)) /\
  ChooseQuantizationParams (float_of_Z (-1)) (fdiv (float_of_Z 7) (float_of_Z 8)) = Some qx_q1 /\
  q_zero_point qx_q1 = 136%Z /\ quantize_one qx_q1 (fdiv (float_of_Z 5) (float_of_Z 8)) = Some 221%Z /\
  valQ (dequantize_one qx_q1 136) == 0 /\ quantize_one qx_q1 (dequantize_one qx_q1 7) = Some 7%Z /\
  quantize_one qx_q1 (S754_infinity true) = Some 0%Z /\ quantize_one qx_q1 S754_nan = Some 255%Z.
Proof. vm_compute. repeat split. Qed.

(* C50: quantize both operands, multiply them with the GEMM and the output
   pipeline of the example, dequantize: every entry whose exact value lies in the
   result range is that value up to (3/4 + 2^-13) result scales plus the error
   brought in by the codes of the operands *)
Theorem C50_end_to_end_error :
  forall m K t hw mnt sc scs lhs rhs result lmin lmax rmin rmax omin omax q1 q2 q3 LF RF L R A B fuel mult shift before,
  let rows := mm_rows result in let cols := mm_cols result in let depth := mm_cols (op_map lhs) in
  let s1 := valQ (q_scale q1) in let s2 := valQ (q_scale q2) in let s3 := valQ (q_scale q3) in
  gemm_config_ok m K t hw mnt result -> takes_uint8 (k_fmt K) ->
  mm_rows (op_map lhs) = rows -> mm_cols (op_map rhs) = cols -> mm_rows (op_map rhs) = depth ->
  (0 < rows)%Z -> (0 < cols)%Z -> (0 < depth)%Z -> (65025 * (depth + kf_reg (k_fmt K)) <= 2 ^ 31 - 1)%Z ->
  holds_matrix (op_mem lhs) (op_map lhs) L -> holds_matrix (op_mem rhs) (op_map rhs) R -> valid_view before result ->
  quantized_from lmin lmax q1 LF L rows depth A -> quantized_from rmin rmax q2 RF R depth cols B ->
  range_ok omin omax -> ChooseQuantizationParams omin omax = Some q3 ->
  pow2 (-126) <= s1 * s2 -> s1 * s2 <= pow2 127 -> (148 <= Z.of_nat fuel)%Z ->
  QuantizeMultiplierSmallerThanOne true fuel (real_multiplier q1 q2 q3) = Some (mult, shift) -> (shift <= 31)%Z ->
  exists phases,
    GemmWithOutputPipeline m K t hw mnt sc scs lhs rhs result (- q_zero_point q1) (- q_zero_point q2)
      [SByFixedPoint mult shift (q_zero_point q3); SSatU8] = Some phases /\
    (exists trace, execution phases trace) /\
    forall trace, execution phases trace -> exists after out, perform trace before = Some after /\ stored before after result out /\
      forall r c, (0 <= r < rows)%Z -> (0 <= c < cols)%Z ->
        let exact := real_product LF RF depth r c in
        range_lo omin <= exact -> exact <= range_hi omax ->
        is_float (dequantize_one q3 (out r c)) /\
        Qabs (valQ (dequantize_one q3 (out r c)) - exact) <=
          ((3 # 4) + (1 # 8192)) * s3 + (1 + (1 # 4194304)) * product_bound depth A B q1 q2.
Proof. exact example_error. Qed.
Print Assumptions C50_end_to_end_error.
(* the 2x4 times 4x3 run: the parameters are those main() computes, and entry
   (1,1) is 5/32 *)
Example C50_example : forall m sc scs,
  offline true 148 2 4 3 qx_lhs qx_rhs =
    Some {| o_lhs := qx_q1; o_rhs := qx_q2; o_result := qx_q3; o_uint8_lhs := qx_L; o_uint8_rhs := qx_R;
            o_multiplier := 1748031232; o_right_shift := 6 |} /\
  real_product qx_LF qx_RF 4 1 1 == 5 # 32 /\
  exists phases,
    GemmWithOutputPipeline m (ReferenceKernel m ex_fmt1) (ex_tune 64 256) 4 0 sc scs qx_lhs_op qx_rhs_op qx_result (-136) (-127)
      [SByFixedPoint 1748031232 6 48; SSatU8] = Some phases /\
    forall trace, execution phases trace -> exists after out, perform trace qx_before = Some after /\
      stored qx_before after qx_result out /\
      Qabs (valQ (dequantize_one qx_q3 (out 1%Z 1%Z)) - (5 # 32)) <= 1 # 25.
Proof.
  intros m sc scs. split; [exact qx_offline|]. split; [reflexivity|].
  destruct (C50_end_to_end_error m (ReferenceKernel m ex_fmt1) (ex_tune 64 256) 4 0 sc scs qx_lhs_op qx_rhs_op qx_result
    (float_of_Z (-1)) (fdiv (float_of_Z 7) (float_of_Z 8)) (float_of_Z (-1)) (float_of_Z 1)
    (S754_finite true 14680064 (-26)) (S754_finite false 15728640 (-24)) qx_q1 qx_q2 qx_q3 qx_LF qx_RF qx_LC qx_RC 1 1
    148 1748031232 6 qx_before (qx_config m) (qx_uint8 m) eq_refl eq_refl eq_refl eq_refl eq_refl eq_refl) as (phases & E & _ & G).
  - vm_compute. discriminate.
  - exact qx_holds_lhs.
  - exact qx_holds_rhs.
  - exact qx_view.
  - exact qx_quantized_lhs.
  - exact qx_quantized_rhs.
  - split; [split; reflexivity | split; [split; reflexivity | split; vm_compute; discriminate]].
  - vm_compute. reflexivity.
  - vm_compute. discriminate.
  - vm_compute. discriminate.
  - vm_compute. discriminate.
  - vm_compute. reflexivity.
  - discriminate.
  - exists phases. split; [exact E|]. intros trace Ht. destruct (G trace Ht) as (after & out & P & S & Z).
    exists after, out. split; [exact P|]. split; [exact S|].
    assert (Ex : real_product qx_LF qx_RF 4 1 1 == 5 # 32) by reflexivity.
    assert (R1 : range_lo (S754_finite true 14680064 (-26)) <= real_product qx_LF qx_RF 4 1 1) by (rewrite Ex; vm_compute; discriminate).
    assert (R2 : real_product qx_LF qx_RF 4 1 1 <= range_hi (S754_finite false 15728640 (-24))) by (rewrite Ex; vm_compute; discriminate).
    pose proof (proj2 (Z 1%Z 1%Z (conj Z.le_0_1 Z.lt_1_2) (conj Z.le_0_1 eq_refl) R1 R2)) as Z2.
    change (mm_cols (op_map qx_lhs_op)) with 4%Z in Z2. rewrite Ex in Z2.
    eapply Qle_trans; [exact Z2 | vm_compute; discriminate].
Qed.
