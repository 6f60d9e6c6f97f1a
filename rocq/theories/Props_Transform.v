(* Props_Transform.v: C67, the one-dimensional transforms of meta/ on ARM64. *)
From Coq Require Import SpecFloat QArith Permutation.
From Verif Require Import Base OutputModel EightBitModel QuantModel MetaModel TransformModel TransformKernels FloatSpec TransformSpec TransformProofs2.
#[local] Open Scope Z_scope.

(* int32 to bytes: exactly count stores, element i to place i, reading nothing but
   the count elements; rounded to nearest *)
Theorem C67_requantize : forall fuel junk count ip bp op input bias data imin ioff iscale omin ooff oscale rows,
  length (c_v junk) = 32%nat -> 0 < count <= Z.of_nat fuel -> readable input ip count (fun i => LI (data i)) ->
  (forall i, 0 <= i < count -> - 2147483648 <= data i <= 2147483647) ->
  exists out, Transform1D lane_ops (requantize_params imin ioff iscale omin ooff oscale) RequantizeK fuel junk count rows input ip bias bp op =
      Some (map (fun i => (op + i, LI (out i))) (zrange count)) /\
    forall i, 0 <= i < count -> integer_of rounds_even 0 255 (requantize_expr imin ioff iscale omin ooff oscale (data i)) (out i).
Proof. intros fuel junk count ip bp op input bias data imin ioff iscale omin ooff oscale rows Hj Hc. exact (requantize_run fuel junk count ip bp op input bias data Hj Hc imin ioff iscale omin ooff oscale rows). Qed.
Print Assumptions C67_requantize.
(* 19 elements: a round of the loop and 3 left over *)
Example C67_requantize_ex : ex_values (Transform1D lane_ops test_requantize_params RequantizeK 19 ex_regs 19 1
    (ex_memory 19 (fun i => LI (- 2000000000 + 222222222 * i))) 100 (fun _ => None) 0 500) =
  Some [9; 22; 35; 48; 62; 75; 88; 101; 114; 128; 141; 154; 167; 180; 193; 207; 220; 233; 246].
Proof. vm_compute. reflexivity. Qed.

(* floats to bytes, truncated *)
Theorem C67_quantize : forall fuel junk count ip bp op input bias (data : Z -> float) min off scale rows,
  length (c_v junk) = 32%nat -> 0 < count <= Z.of_nat fuel -> readable input ip count (fun i => LF (data i)) ->
  exists out, Transform1D lane_ops (quantize_params min off scale) QuantizeK fuel junk count rows input ip bias bp op =
      Some (map (fun i => (op + i, LI (out i))) (zrange count)) /\
    forall i, 0 <= i < count -> integer_of truncates 0 255 (quantize_expr min off scale (data i)) (out i).
Proof. intros fuel junk count ip bp op input bias data min off scale rows Hj Hc. exact (quantize_run fuel junk count ip bp op input bias (fun _ => 0) Hj Hc data min off scale rows). Qed.
Print Assumptions C67_quantize.
Example C67_quantize_ex : ex_values (Transform1D lane_ops (quantize_params (float_of_Z (-100)) (float_of_Z 0) test_one_over) QuantizeK 18 ex_regs 18 1
    (ex_memory 18 (fun i => if i =? 0 then LF S754_nan else if i =? 1 then LF (S754_infinity false) else LF (float_of_Z (15 * i - 150)))) 100 (fun _ => None) 0 500) =
  Some [0; 255; 0; 0; 12; 31; 51; 70; 89; 108; 127; 146; 165; 184; 204; 223; 242; 255].
Proof. vm_compute. reflexivity. Qed.

(* bytes to floats *)
Theorem C67_dequantize : forall fuel junk count ip bp op input bias data min off scale rows,
  length (c_v junk) = 32%nat -> 0 < count <= Z.of_nat fuel -> readable input ip count (fun i => LI (data i)) ->
  (forall i, 0 <= i < count -> 0 <= data i <= 255) ->
  Transform1D lane_ops (quantize_params min off scale) DequantizeK fuel junk count rows input ip bias bp op =
    Some (map (fun i => (op + i, LF (dequantize_expr min off scale (data i)))) (zrange count)).
Proof. intros fuel junk count ip bp op input bias data min off scale rows Hj Hc. exact (dequantize_run fuel junk count ip bp op input bias data Hj Hc min off scale rows). Qed.
Print Assumptions C67_dequantize.
Example C67_dequantize_ex : Transform1D lane_ops (quantize_params (float_of_Z (-100)) (float_of_Z 5) (float_of_Z 2)) DequantizeK 3 ex_regs 3 1
    (ex_memory 3 (fun i => LI (50 + 100 * i))) 100 (fun _ => None) 0 500 =
  Some [(500, LF (float_of_Z (-10))); (501, LF (float_of_Z 190)); (502, LF (float_of_Z 390))].
Proof. vm_compute. reflexivity. Qed.

(* bytes into lo..hi; with the bounds crossed every element becomes hi *)
Theorem C67_minmax : forall fuel junk count ip bp op input bias data lo hi rows,
  length (c_v junk) = 32%nat -> 0 < count <= Z.of_nat fuel -> 0 <= lo <= 255 -> 0 <= hi <= 255 ->
  readable input ip count (fun i => LI (data i)) -> (forall i, 0 <= i < count -> 0 <= data i <= 255) ->
  Transform1D lane_ops (minmax_params lo hi) MinMaxK fuel junk count rows input ip bias bp op =
    Some (map (fun i => (op + i, LI (if lo <=? hi then clamp lo hi (data i) else hi))) (zrange count)).
Proof. intros fuel junk count ip bp op input bias data lo hi rows Hj Hc. exact (minmax_run fuel junk count ip bp op input bias data Hj Hc lo hi rows). Qed.
Print Assumptions C67_minmax.
Example C67_minmax_ex : ex_values (Transform1D lane_ops (minmax_params 64 192) MinMaxK 23 ex_regs 23 1
    (ex_memory 23 (fun i => LI (11 * i))) 100 (fun _ => None) 0 500) =
  Some [64; 64; 64; 64; 64; 64; 66; 77; 88; 99; 110; 121; 132; 143; 154; 165; 176; 187; 192; 192; 192; 192; 192].
Proof. vm_compute. reflexivity. Qed.

(* rows of bytes plus a row of biases to int32, truncated *)
Theorem C67_biasadd : forall fuel junk count ip bp op input bias data bdata imin ioff iscale bmin boff bscale omin ooff oscale rows,
  length (c_v junk) = 32%nat -> 0 < count <= Z.of_nat fuel -> 0 < rows <= Z.of_nat fuel ->
  readable input ip (rows * count) (fun i => LI (data i)) -> (forall i, 0 <= i < rows * count -> 0 <= data i <= 255) ->
  readable bias bp count (fun i => LI (bdata i)) -> (forall i, 0 <= i < count -> 0 <= bdata i <= 255) ->
  exists out, Transform1D lane_ops (biasadd_params imin ioff iscale bmin boff bscale omin ooff oscale) BiasAddK fuel junk count rows input ip bias bp op =
      Some (map (fun i => (op + i, LI (out i))) (zrange (rows * count))) /\
    forall i, 0 <= i < rows * count ->
      integer_of truncates (- 2147483648) 2147483647 (biasadd_expr imin iscale bmin bscale omin ooff oscale (data i) (bdata (i mod count))) (out i).
Proof.
  intros fuel junk count ip bp op input bias data bdata imin ioff iscale bmin boff bscale omin ooff oscale rows Hj Hc.
  exact (biasadd_run fuel junk count ip bp op input bias data Hj Hc bdata imin ioff iscale bmin boff bscale omin ooff oscale rows).
Qed.
Print Assumptions C67_biasadd.
Example C67_biasadd_ex : ex_values (Transform1D lane_ops
    (biasadd_params (float_of_Z (-100)) (float_of_Z 0) (float_of_Z 1) (float_of_Z 7) (float_of_Z 0) (float_of_Z 2) (float_of_Z (-250)) (float_of_Z (-3000)) (float_of_Z 10))
    BiasAddK 9 ex_regs 3 2 (ex_memory 6 (fun i => LI (40 * i))) 100 (ex_memory 3 (fun i => LI (i + 1))) 100 500) =
  Some [-1410; -990; -570; -210; 210; 630].
Proof. vm_compute. reflexivity. Qed.

(* several threads: at most as many tasks as threads, and their stores in any order
   leave the memory the single thread leaves *)
Theorem C67_multi_thread : forall V (o : ops V) param k cost mode fuel junk junk1 hw max_num_threads count rows input bias (x : Z -> V) ip bp op,
  In (k, cost) [(RequantizeK, 12); (QuantizeK, 8); (DequantizeK, 12); (MinMaxK, 4)] ->
  (forall n, length (c_v (junk n)) = 32%nat) -> length (c_v junk1) = 32%nat -> 0 < count <= Z.of_nat fuel -> count * cost <= 2147483647 ->
  readable input ip count x ->
  exists log logs, Transform1D o param k fuel junk1 count rows input ip bias bp op = Some log /\
    MultiThreadTransform1D o param mode k fuel junk hw max_num_threads cost count input ip op = Some logs /\
    1 <= Z.of_nat (length logs) <= Z.max 1 (ResolveMaxThreads hw max_num_threads) /\
    forall order m a, Permutation order (concat logs) -> write_all order m a = write_all log m a.
Proof. exact @multi_thread_run. Qed.
Print Assumptions C67_multi_thread.
(* 20000 int32 on four threads make three tasks of 6666, 6666 and 6668 elements *)
Example C67_multi_thread_ex : PrepareTransform1DTasks Trap (ResolveMaxThreads 8 4) 12 20000 = Some [(0, 6666); (6666, 6666); (13332, 6668)].
Proof. vm_compute. reflexivity. Qed.

(* findings *)
(* without elements no kernel comes to an end: the loop counts past zero *)
Theorem C67_terminates_refuted : exists count, 0 <= count /\ forall V (o : ops V) param k fuel junk rows input ip bias bp op,
  Transform1D o param k fuel junk count rows input ip bias bp op = None.
Proof. exact terminates_not. Qed.
Print Assumptions C67_terminates_refuted.
(* nor does BiasAdd without rows *)
Theorem C67_biasadd_needs_rows : forall V (o : ops V) param fuel junk count rows input ip bias bp op, rows <= 0 ->
  Transform1D o param BiasAddK fuel junk count rows input ip bias bp op = None.
Proof. exact @no_rows. Qed.
Print Assumptions C67_biasadd_needs_rows.
(* the parameters of meta/test_transform_correctness.cc and its first element: the
   kernel stores 9, the test computes 8 and would exit *)
Theorem C67_test_requantize_refuted : exists z, - 2147483648 <= z <= 2147483647 /\
  (forall fuel junk (input bias : Z -> option lane) (data : Z -> Z) ip bp op, length (c_v junk) = 32%nat -> 12345 <= Z.of_nat fuel ->
     readable input ip 12345 (fun i => LI (data i)) -> (forall i, 0 <= i < 12345 -> - 2147483648 <= data i <= 2147483647) -> data 0 = z ->
     exists log, Transform1D lane_ops test_requantize_params RequantizeK fuel junk 12345 1 input ip bias bp op = Some log /\ In (op, LI 9) log) /\
  integer_of truncates 0 255 (test_requantize_expr (float_of_Z (-100)) (float_of_Z (- 2147483648)) test_scale (float_of_Z (-100)) (float_of_Z 0) test_one_over z) 8.
Proof. exact test_requantize_differs. Qed.
Print Assumptions C67_test_requantize_refuted.
(* BiasAdd does not use the offsets of input and bias: 150 where the formula gives 115 *)
Theorem C67_biasadd_offsets_refuted : exists imin ioff iscale bmin boff bscale omin ooff oscale z b,
  0 <= z <= 255 /\ 0 <= b <= 255 /\
  (forall fuel junk rows (input bias : Z -> option lane) ip bp op, length (c_v junk) = 32%nat -> rows = 1 -> (1 <= fuel)%nat -> input ip = Some (LI z) -> bias bp = Some (LI b) ->
     Transform1D lane_ops (biasadd_params imin ioff iscale bmin boff bscale omin ooff oscale) BiasAddK fuel junk 1 rows input ip bias bp op = Some [(op, LI 150)]) /\
  integer_of truncates (- 2147483648) 2147483647 (test_biasadd_expr imin ioff iscale bmin boff bscale omin ooff oscale z b) 115.
Proof. exact biasadd_ignores_offsets. Qed.
Print Assumptions C67_biasadd_offsets_refuted.
(* the estimated cost overflows int before the count does *)
Theorem C67_cost_refuted : exists count, 0 < count <= 2147483647 /\ forall max_threads, PrepareTransform1DTasks Trap max_threads 12 count = None.
Proof. exact cost_overflows. Qed.
Print Assumptions C67_cost_refuted.
