(* Props_Transcendental.v: C27-C29, exp, tanh, logistic and the reciprocal
   helpers of fixedpoint.h; every theorem is for both overflow modes, so in
   particular (mode Trap) no signed operation overflows. *)
From Verif Require Import Base FixedPointModel FixedPointSpec FixedPointProofs FixedPointProofs2 FixedPointProofs3
  FixedPointProofs4 FixedPointProofs5.

(* C27: exp_on_negative_values, for every nonpositive input and every number of
   integer bits for which ConstantPOT<-2> exists. *)
Theorem C27_exp_on_negative_values m w ib a :
  (w = 16 \/ w = 32) -> 0 <= ib <= w - 3 -> fits w a -> a <= 0 ->
  exists r, exp_on_negative_values m w ib a = Some r /\ 0 <= r <= One w 0 /\ (a = 0 -> r = One w 0).
Proof. exact (exp_negative_in_range m w ib a). Qed.
Print Assumptions C27_exp_on_negative_values.

(* The value does not depend on the overflow mode: where no operation overflows,
   wrapping arithmetic gives the same result. *)
Theorem C27_mode_independent w ib a r : 1 <= w ->
  exp_on_negative_values Trap w ib a = Some r -> exp_on_negative_values Wrap w ib a = Some r.
Proof. intros Hw. exact (agree_exp w ib a Hw r). Qed.
Print Assumptions C27_mode_independent.

Example C27_example :
  exp_on_negative_values Trap 32 5 (-67108864) = Some 790015308 (* exp(-1) is 790015084.5 *) /\
  exp_on_negative_values Trap 16 3 (-32768) = Some 11 (* exp(-8) is 10.99 *) /\
  exp_on_negative_values Trap 32 29 (-2147483648) = Some 0 /\
  exp_on_negative_values Trap 32 0 0 = Some 2147483647.
Proof. repeat split; vm_compute; reflexivity. Qed.

(* C28: tanh is odd and in [-One, One]; logistic is in [0, One] and
   logistic(-a) = One - logistic(a). *)
Theorem C28_tanh m w ib a : (w = 16 \/ w = 32) -> 0 <= ib <= w - 4 -> fits w a -> a <> - 2 ^ (w - 1) ->
  exists r, ftanh m w ib a = Some r /\ - One w 0 <= r <= One w 0 /\
    ftanh m w ib (- a) = Some (- r) /\ (a = 0 -> r = 0).
Proof. exact (tanh_ok m w ib a). Qed.
Print Assumptions C28_tanh.

Theorem C28_logistic m w ib a : (w = 16 \/ w = 32) -> 0 <= ib <= w - 3 -> fits w a -> a <> - 2 ^ (w - 1) ->
  exists r, logistic m w ib a = Some r /\ 0 <= r <= One w 0 /\
    (a <> 0 -> logistic m w ib (- a) = Some (One w 0 - r)) /\ (a = 0 -> r = 2 ^ (w - 2)).
Proof. exact (logistic_ok m w ib a). Qed.
Print Assumptions C28_logistic.

Theorem C28_mode_independent w ib a r : 1 <= w ->
  (ftanh Trap w ib a = Some r -> ftanh Wrap w ib a = Some r) /\
  (logistic Trap w ib a = Some r -> logistic Wrap w ib a = Some r).
Proof. intros Hw. exact (conj (agree_tanh w ib a Hw r) (agree_logistic w ib a Hw r)). Qed.
Print Assumptions C28_mode_independent.

(* The minimum is excluded because both functions negate their argument. *)
Theorem C28_minimum_overflow_refuted w ib : (w = 16 \/ w = 32) ->
  ftanh Trap w ib (- 2 ^ (w - 1)) = None /\ logistic Trap w ib (- 2 ^ (w - 1)) = None.
Proof. exact (minimum_overflow_refuted w ib). Qed.
Print Assumptions C28_minimum_overflow_refuted.

(* tanh does not keep the sign: 16-bit tanh of the smallest positive number is negative. *)
Theorem C28_tanh_sign_refuted : exists a r, 0 < a /\ ftanh Trap 16 0 a = Some r /\ r < 0.
Proof. exact tanh_sign_refuted. Qed.
Print Assumptions C28_tanh_sign_refuted.

Example C28_example :
  ftanh Trap 32 4 134217728 = Some 1635510876 /\ ftanh Trap 32 4 (-134217728) = Some (-1635510876) /\
  logistic Trap 32 4 134217728 = Some 1569936226 /\ logistic Trap 32 4 (-134217728) = Some 577547421 /\
  logistic Trap 16 3 0 = Some 16384.
Proof. repeat split; vm_compute; reflexivity. Qed.

(* C29: the reciprocal helpers, for every x in [0,1): within 14 (resp. 28)
   units in the last place of 1/(1+x) (resp. (1-x)/(1+x)). *)
Theorem C29_one_over_one_plus_x m w a : (w = 16 \/ w = 32) -> 0 <= a <= int_max w ->
  exists r, one_over_one_plus_x m w a = Some r /\ 0 <= r <= One w 0 /\
    Z.abs (r * (2 ^ (w - 1) + a) - 2 ^ (w - 1) * 2 ^ (w - 1)) <= 14 * (2 ^ (w - 1) + a).
Proof. exact (one_over_ok m w a). Qed.
Print Assumptions C29_one_over_one_plus_x.

Theorem C29_one_minus_x_over_one_plus_x m w a : (w = 16 \/ w = 32) -> 0 <= a <= int_max w ->
  exists r, one_minus_x_over_one_plus_x m w a = Some r /\ -28 <= r <= One w 0 /\
    Z.abs (r * (2 ^ (w - 1) + a) - 2 ^ (w - 1) * (2 ^ (w - 1) - a)) <= 28 * (2 ^ (w - 1) + a).
Proof. exact (one_minus_over_ok m w a). Qed.
Print Assumptions C29_one_minus_x_over_one_plus_x.

(* It is not always in [0,1]. *)
Theorem C29_negative_result_refuted : exists a r,
  0 <= a <= int_max 32 /\ one_minus_x_over_one_plus_x Trap 32 a = Some r /\ r < 0.
Proof. exact one_minus_over_negative_refuted. Qed.
Print Assumptions C29_negative_result_refuted.

Example C29_example : one_over_one_plus_x Trap 32 1073741824 = Some 1431655762 (* 2/3 *) /\
  one_minus_x_over_one_plus_x Trap 32 1073741824 = Some 715827876 (* 1/3 *) /\
  one_over_one_plus_x Trap 16 0 = Some 32767.
Proof. repeat split; vm_compute; reflexivity. Qed.
