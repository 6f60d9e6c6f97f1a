(* Props_Transform32.v: C68, the one-dimensional transforms of meta/ on 32-bit ARM. *)
From Coq Require Import SpecFloat QArith Permutation.
From Verif Require Import Base OutputModel EightBitModel QuantModel MetaModel TransformModel TransformKernels TransformKernels32 FloatSpec TransformSpec TransformProofs2 TransformProofs32.
#[local] Open Scope Z_scope.

(* int32 to bytes, truncated, whatever the offset of the output *)
Theorem C68_requantize : forall fuel junk count ip bp op input bias data imin ioff iscale omin ooff oscale rows,
  length (c_v junk) = 32%nat -> 0 < count <= Z.of_nat fuel -> readable input ip count (fun i => LI (data i)) ->
  (forall i, 0 <= i < count -> - 2147483648 <= data i <= 2147483647) ->
  exists out, Transform1D lane_ops32 (requantize_params imin ioff iscale omin ooff oscale) Requantize32K fuel junk count rows input ip bias bp op =
      Some (map (fun i => (op + i, LI (out i))) (zrange count)) /\
    forall i, 0 <= i < count -> integer_of truncates 0 255 (requantize32_expr imin ioff iscale omin oscale (data i)) (out i).
Proof. intros fuel junk count ip bp op input bias data imin ioff iscale omin ooff oscale rows Hj Hc. exact (requantize32_run fuel junk count ip bp op input bias Hj Hc data imin ioff iscale omin ooff oscale rows). Qed.
Print Assumptions C68_requantize.
(* 19 elements: a round of the loop and 3 left over; the first is the 8 that
   meta/test_transform_correctness.cc expects *)
Example C68_requantize_ex : ex_values (Transform1D lane_ops32 test_requantize_params Requantize32K 19 ex_regs 19 1
    (ex_memory 19 (fun i => LI (- 2000000000 + 222222222 * i))) 100 (fun _ => None) 0 500) =
  Some [8; 21; 35; 48; 61; 74; 87; 101; 114; 127; 140; 153; 167; 180; 193; 206; 219; 233; 246].
Proof. vm_compute. reflexivity. Qed.

(* floats to bytes, truncated *)
Theorem C68_quantize : forall fuel junk count ip bp op input bias (data : Z -> float) min off scale rows,
  length (c_v junk) = 32%nat -> 0 < count <= Z.of_nat fuel -> readable input ip count (fun i => LF (data i)) ->
  exists out, Transform1D lane_ops32 (quantize_params min off scale) Quantize32K fuel junk count rows input ip bias bp op =
      Some (map (fun i => (op + i, LI (out i))) (zrange count)) /\
    forall i, 0 <= i < count -> integer_of truncates 0 255 (quantize32_expr min off scale (data i)) (out i).
Proof. intros fuel junk count ip bp op input bias data min off scale rows Hj Hc. exact (quantize32_run fuel junk count ip bp op input bias Hj Hc data min off scale rows). Qed.
Print Assumptions C68_quantize.
(* the second element is 2^-130 with the scale 2^127 and counts as zero: 0, and 255 for the third, 1 *)
Example C68_quantize_ex : ex_values (Transform1D lane_ops32 (quantize_params (float_of_Z 0) (float_of_Z 0) (S754_finite false 8388608 104)) Quantize32K 3 ex_regs 3 1
    (ex_memory 3 (fun i => if i =? 0 then LF S754_nan else if i =? 1 then LF (S754_finite false 524288 (- 149)) else LF (float_of_Z 1))) 100 (fun _ => None) 0 500) =
  Some [0; 0; 255].
Proof. vm_compute. reflexivity. Qed.

(* bytes to floats *)
Theorem C68_dequantize : forall fuel junk count ip bp op input bias data min off scale rows,
  length (c_v junk) = 32%nat -> 0 < count <= Z.of_nat fuel -> readable input ip count (fun i => LI (data i)) ->
  (forall i, 0 <= i < count -> 0 <= data i <= 255) ->
  Transform1D lane_ops32 (quantize_params min off scale) Dequantize32K fuel junk count rows input ip bias bp op =
    Some (map (fun i => (op + i, LF (dequantize32_expr min off scale (data i)))) (zrange count)).
Proof. intros fuel junk count ip bp op input bias data min off scale rows Hj Hc. exact (dequantize32_run fuel junk count ip bp op input bias Hj Hc data min off scale rows). Qed.
Print Assumptions C68_dequantize.
(* a scale of 2^-130 counts as zero *)
Example C68_dequantize_ex :
  Transform1D lane_ops32 (quantize_params (float_of_Z (-100)) (float_of_Z 5) (float_of_Z 2)) Dequantize32K 3 ex_regs 3 1
    (ex_memory 3 (fun i => LI (50 + 100 * i))) 100 (fun _ => None) 0 500 =
    Some [(500, LF (float_of_Z (-10))); (501, LF (float_of_Z 190)); (502, LF (float_of_Z 390))] /\
  Transform1D lane_ops32 (quantize_params (float_of_Z 0) (float_of_Z 0) (S754_finite false 524288 (- 149))) Dequantize32K 1 ex_regs 1 1
    (ex_memory 1 (fun i => LI 50)) 100 (fun _ => None) 0 500 = Some [(500, LF (S754_zero false))].
Proof. vm_compute. split; reflexivity. Qed.

(* bytes into lo..hi *)
Theorem C68_minmax : forall fuel junk count ip bp op input bias data lo hi rows,
  length (c_v junk) = 32%nat -> 0 < count <= Z.of_nat fuel -> 0 <= lo <= 255 -> 0 <= hi <= 255 ->
  readable input ip count (fun i => LI (data i)) -> (forall i, 0 <= i < count -> 0 <= data i <= 255) ->
  Transform1D lane_ops32 (minmax_params lo hi) MinMax32K fuel junk count rows input ip bias bp op =
    Some (map (fun i => (op + i, LI (if lo <=? hi then clamp lo hi (data i) else hi))) (zrange count)).
Proof. intros fuel junk count ip bp op input bias data lo hi rows Hj Hc. exact (minmax32_run fuel junk count ip bp op input bias Hj Hc data lo hi rows). Qed.
Print Assumptions C68_minmax.
Example C68_minmax_ex : ex_values (Transform1D lane_ops32 (minmax_params 64 192) MinMax32K 23 ex_regs 23 1
    (ex_memory 23 (fun i => LI (11 * i))) 100 (fun _ => None) 0 500) =
  Some [64; 64; 64; 64; 64; 64; 66; 77; 88; 99; 110; 121; 132; 143; 154; 165; 176; 187; 192; 192; 192; 192; 192].
Proof. vm_compute. reflexivity. Qed.

(* rows of bytes plus a row of biases to int32, truncated *)
Theorem C68_biasadd : forall fuel junk count ip bp op input bias data bdata imin ioff iscale bmin boff bscale omin ooff oscale rows,
  length (c_v junk) = 32%nat -> 0 < count <= Z.of_nat fuel -> 0 < rows <= Z.of_nat fuel ->
  readable input ip (rows * count) (fun i => LI (data i)) -> (forall i, 0 <= i < rows * count -> 0 <= data i <= 255) ->
  readable bias bp count (fun i => LI (bdata i)) -> (forall i, 0 <= i < count -> 0 <= bdata i <= 255) ->
  exists out, Transform1D lane_ops32 (biasadd_params imin ioff iscale bmin boff bscale omin ooff oscale) BiasAdd32K fuel junk count rows input ip bias bp op =
      Some (map (fun i => (op + i, LI (out i))) (zrange (rows * count))) /\
    forall i, 0 <= i < rows * count ->
      integer_of truncates (- 2147483648) 2147483647 (biasadd32_expr imin iscale bmin bscale omin ooff oscale (data i) (bdata (i mod count))) (out i).
Proof.
  intros fuel junk count ip bp op input bias data bdata imin ioff iscale bmin boff bscale omin ooff oscale rows Hj Hc.
  exact (biasadd32_run fuel junk count ip bp op input bias Hj Hc data bdata imin ioff iscale bmin boff bscale omin ooff oscale rows).
Qed.
Print Assumptions C68_biasadd.
Example C68_biasadd_ex : ex_values (Transform1D lane_ops32
    (biasadd_params (float_of_Z (-100)) (float_of_Z 0) (float_of_Z 1) (float_of_Z 7) (float_of_Z 0) (float_of_Z 2) (float_of_Z (-250)) (float_of_Z (-3000)) (float_of_Z 10))
    BiasAdd32K 9 ex_regs 3 2 (ex_memory 6 (fun i => LI (40 * i))) 100 (ex_memory 3 (fun i => LI (i + 1))) 100 500) =
  Some [-1410; -990; -570; -210; 210; 630].
Proof. vm_compute. reflexivity. Qed.

(* several threads *)
Theorem C68_multi_thread : forall V (o : ops V) param k cost mode fuel junk junk1 hw max_num_threads count rows input bias (x : Z -> V) ip bp op,
  In (k, cost) [(Requantize32K, 12); (Quantize32K, 8); (Dequantize32K, 12); (MinMax32K, 4)] ->
  (forall n, length (c_v (junk n)) = 32%nat) -> length (c_v junk1) = 32%nat -> 0 < count <= Z.of_nat fuel -> count * cost <= 2147483647 ->
  readable input ip count x ->
  exists log logs, Transform1D o param k fuel junk1 count rows input ip bias bp op = Some log /\
    MultiThreadTransform1D o param mode k fuel junk hw max_num_threads cost count input ip op = Some logs /\
    1 <= Z.of_nat (length logs) <= Z.max 1 (ResolveMaxThreads hw max_num_threads) /\
    forall order m a, Permutation order (concat logs) -> write_all order m a = write_all log m a.
Proof. exact @multi_thread32_run. Qed.
Print Assumptions C68_multi_thread.
Example C68_multi_thread_ex : PrepareTransform1DTasks Trap (ResolveMaxThreads 2 0) 8 100000 = Some [(0, 50000); (50000, 50000)].
Proof. vm_compute. reflexivity. Qed.

(* the same parameters and the same element 23: 22 on ARM64 (11.5 + 10 rounded to
   even), 11 on 32-bit ARM, which leaves out the offset and truncates *)
Theorem C68_same_as_arm64_refuted : exists p z, - 2147483648 <= z <= 2147483647 /\
  forall fuel junk rows (input bias : Z -> option lane) ip bp op, length (c_v junk) = 32%nat -> (1 <= fuel)%nat -> input ip = Some (LI z) ->
    Transform1D lane_ops p RequantizeK fuel junk 1 rows input ip bias bp op = Some [(op, LI 22)] /\
    Transform1D lane_ops32 p Requantize32K fuel junk 1 rows input ip bias bp op = Some [(op, LI 11)].
Proof. exact requantize_processors_differ. Qed.
Print Assumptions C68_same_as_arm64_refuted.
