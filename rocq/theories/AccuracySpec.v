(* AccuracySpec.v: what the fixed-point approximations of exp, the logistic
   function and tanh are compared with: the real functions of Coq.Reals.
   A raw w-bit value a with ib integer bits stands for a / 2^(w-1-ib)
   (/repo/fixedpoint/fixedpoint.h, lines 468-470: kFractionalBits is
   kTotalBits - 1 - kIntegerBits). *)
From Coq Require Import Reals.
From Coq Require Import ZArith.
Local Open Scope R_scope.

Definition fixed_value (w ib a : Z) : R := IZR a / IZR (2 ^ (w - 1 - ib)).

(* one unit in the last place of a result with no integer bits *)
Definition ulp (w : Z) : R := / IZR (2 ^ (w - 1)).

Definition logistic_function (x : R) : R := 1 / (1 + exp (- x)).

(* the error bounds, in units in the last place *)
Definition exp_ulps (w : Z) : R := if (w =? 16)%Z then 5 else 495.
Definition logistic_ulps (w : Z) : R := if (w =? 16)%Z then 20 else 175.
Definition tanh_ulps (w : Z) : R := if (w =? 16)%Z then 38 else 348.

(* the reference value of /repo/test/test_fixedpoint.cc (FromDouble of the exact
   value, fixedpoint.h 525-532): the nearest raw value with no integer bits,
   clamped to the raw type.  At a tie either neighbour is a reference. *)
Definition reference (w : Z) (y : R) (q : Z) : Prop :=
  exists n : Z, Rabs (IZR n - IZR (2 ^ (w - 1)) * y) <= 1 / 2 /\
    q = Z.max (- 2 ^ (w - 1)) (Z.min (2 ^ (w - 1) - 1) n).
