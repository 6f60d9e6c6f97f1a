(* Props_Accuracy.v: property theorems C62 and C63, about the distance between the
   fixed-point approximations of exp, the logistic function and tanh
   (FixedPointModel.v) and the real functions of Coq.Reals.  These theorems
   depend on the axioms of Coq.Reals.  ib is the number of integer bits of the
   argument. *)
From Coq Require Import Reals.
From Verif Require Import Base FixedPointModel FixedPointSpec AccuracySpec AccuracyProps.
Local Open Scope R_scope.

(* C62: for every argument the result is defined and within a fixed number of
   units in the last place of the real function *)
Theorem C62_exp_accuracy : forall m w ib a,
  w = 16%Z \/ w = 32%Z -> (0 <= ib <= w - 3)%Z -> fits w a -> (a <= 0)%Z ->
  exists r, exp_on_negative_values m w ib a = Some r /\
    Rabs (fixed_value w 0 r - exp (fixed_value w ib a)) <= exp_ulps w * ulp w.
Proof. exact exp_accurate. Qed.
Print Assumptions C62_exp_accuracy.

Theorem C62_logistic_accuracy : forall m w ib a,
  w = 16%Z \/ w = 32%Z -> (0 <= ib <= w - 3)%Z -> fits w a -> (a <> - 2 ^ (w - 1))%Z ->
  exists r, logistic m w ib a = Some r /\
    Rabs (fixed_value w 0 r - logistic_function (fixed_value w ib a)) <= logistic_ulps w * ulp w.
Proof. exact logistic_accurate. Qed.
Print Assumptions C62_logistic_accuracy.

Theorem C62_tanh_accuracy : forall m w ib a,
  w = 16%Z \/ w = 32%Z -> (0 <= ib <= w - 4)%Z -> fits w a -> (a <> - 2 ^ (w - 1))%Z ->
  exists r, ftanh m w ib a = Some r /\
    Rabs (fixed_value w 0 r - tanh (fixed_value w ib a)) <= tanh_ulps w * ulp w.
Proof. exact tanh_accurate. Qed.
Print Assumptions C62_tanh_accuracy.

(* concrete cases: exp (-1) with 32 bits, logistic 1 and tanh (-1/2) with 16 *)
Example C62_example_exp :
  exp_on_negative_values Trap 32 5 (-67108864) = Some 790015308%Z /\ fixed_value 32 5 (-67108864) = - (1) /\
  fits 32 (-67108864) /\ 36787954 / 100000000 < fixed_value 32 0 790015308 < 36787955 / 100000000 /\
  36787944 / 100000000 < exp (- (1)) < 36787945 / 100000000.
Proof. exact exp_example_32. Qed.
Example C62_example_logistic :
  logistic Trap 16 3 4096 = Some 23952%Z /\ fixed_value 16 3 4096 = 1 /\
  7309 / 10000 < fixed_value 16 0 23952 < 7310 / 10000 /\ 7310 / 10000 < logistic_function 1 < 7311 / 10000.
Proof. exact logistic_example_16. Qed.
Example C62_example_tanh :
  ftanh Trap 16 3 (-2048) = Some (-15136)%Z /\ fixed_value 16 3 (-2048) = - (1 / 2) /\
  - (4620 / 10000) < fixed_value 16 0 (-15136) < - (4619 / 10000) /\ - (4622 / 10000) < tanh (- (1 / 2)) < - (4621 / 10000).
Proof. exact tanh_example_16. Qed.

(* the bound of 495 units for 32 bits is nearly reached: the error of
   exp (-1/4) exceeds 472 units *)
Theorem C62_exp_error_below_472_refuted : exists r,
  exp_on_negative_values Trap 32 0 (-536870912) = Some r /\
  Rabs (fixed_value 32 0 r - exp (fixed_value 32 0 (-536870912))) > 472 * ulp 32.
Proof. exact exp_error_reached. Qed.
Print Assumptions C62_exp_error_below_472_refuted.

(* C63: the tolerances of /repo/test/test_fixedpoint.cc, which that file checks on
   sampled arguments.  With 32 bits the tolerance of 500 for exp (lines 208 and
   229) holds for every argument. *)
Theorem C63_exp_32_within_test_tolerance : forall m ib a q,
  (0 <= ib <= 29)%Z -> fits 32 a -> (a <= 0)%Z -> reference 32 (exp (fixed_value 32 ib a)) q ->
  exists r, exp_on_negative_values m 32 ib a = Some r /\ (Z.abs (r - q) <= 500)%Z.
Proof. exact exp_test_tolerance. Qed.
Print Assumptions C63_exp_32_within_test_tolerance.

Theorem C63_exp_interval_32_within_test_tolerance : forall m a q,
  (- 2 ^ 29 <= a <= -1)%Z -> reference 32 (exp (fixed_value 32 0 a)) q ->
  exists r, exp_on_interval m 32 a = Some r /\ (Z.abs (r - q) <= 500)%Z.
Proof. exact exp_interval_test_tolerance. Qed.
Print Assumptions C63_exp_interval_32_within_test_tolerance.

Example C63_example : reference 32 (exp (fixed_value 32 0 (-536870912))) 1672461947 /\
  exp_on_negative_values Trap 32 0 (-536870912) = Some 1672462419%Z.
Proof. exact exp_reference_example. Qed.

(* the tolerances below do not hold for every argument: 1 for exp on (-1/4, 0)
   with 16 bits (line 208), 5 and 6 for 1 / (1 + x) with 16 and 32 bits (line
   288), 11 and 12 for (1 - x) / (1 + x) (line 249), 6 for the logistic function
   with 16 bits (line 307) *)
Theorem C63_exp_interval_16_tolerance_refuted : exists r q,
  exp_on_interval Trap 16 (-8031) = Some r /\ reference 16 (exp (fixed_value 16 0 (-8031))) q /\
  (Z.abs (r - q) > 1)%Z.
Proof. exact exp_interval_16_exceeds. Qed.
Print Assumptions C63_exp_interval_16_tolerance_refuted.

Theorem C63_one_over_tolerance_refuted :
  (exists a r q, (0 <= a < 2 ^ 15)%Z /\ one_over_one_plus_x Trap 16 a = Some r /\
     reference 16 (1 / (1 + fixed_value 16 0 a)) q /\ (Z.abs (r - q) > 5)%Z) /\
  (exists a r q, (0 <= a < 2 ^ 31)%Z /\ one_over_one_plus_x Trap 32 a = Some r /\
     reference 32 (1 / (1 + fixed_value 32 0 a)) q /\ (Z.abs (r - q) > 6)%Z).
Proof. exact one_over_exceeds. Qed.
Print Assumptions C63_one_over_tolerance_refuted.

Theorem C63_one_minus_over_tolerance_refuted :
  (exists a r q, (0 <= a < 2 ^ 15)%Z /\ one_minus_x_over_one_plus_x Trap 16 a = Some r /\
     reference 16 ((1 - fixed_value 16 0 a) / (1 + fixed_value 16 0 a)) q /\ (Z.abs (r - q) > 11)%Z) /\
  (exists a r q, (0 <= a < 2 ^ 31)%Z /\ one_minus_x_over_one_plus_x Trap 32 a = Some r /\
     reference 32 ((1 - fixed_value 32 0 a) / (1 + fixed_value 32 0 a)) q /\ (Z.abs (r - q) > 12)%Z).
Proof. exact one_minus_over_exceeds. Qed.
Print Assumptions C63_one_minus_over_tolerance_refuted.

Theorem C63_logistic_16_tolerance_refuted : exists r q,
  logistic Trap 16 1 (-31137) = Some r /\
  reference 16 (logistic_function (fixed_value 16 1 (-31137))) q /\ (Z.abs (r - q) > 6)%Z.
Proof. exact logistic_16_exceeds. Qed.
Print Assumptions C63_logistic_16_tolerance_refuted.
