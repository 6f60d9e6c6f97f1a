(* FloatSpec.v: what correctly rounded binary floating point means, stated with
   rational numbers and without reference to how SpecFloat computes.  prec and
   emax are as in SpecFloat: 24 and 128 for float, 53 and 1024 for double. *)
From Coq Require Import SpecFloat QArith Qabs Qpower.
From Verif Require Import Base.
#[local] Open Scope Q_scope.

Definition pow2 (e : Z) : Q := Qpower 2 e.
(* the number a finite datum stands for; 0 for the others *)
Definition valQ (f : spec_float) : Q :=
  match f with
  | S754_finite s m e => inject_Z (if s then Zneg m else Zpos m) * pow2 e
  | _ => 0
  end.
Definition is_fin (f : spec_float) : bool :=
  match f with S754_zero _ | S754_finite _ _ _ => true | _ => false end.

(* the numbers the format can represent *)
Definition in_format (prec emax : Z) (y : Q) : Prop :=
  exists m e : Z, (Z.abs m < 2 ^ prec /\ 3 - emax - prec <= e <= emax - prec)%Z /\ y == inject_Z m * pow2 e.
(* the least number that rounds to infinity *)
Definition overflow_threshold (prec emax : Z) : Q :=
  (inject_Z (2 ^ prec) - (1 # 2)) * pow2 (emax - prec).

(* f is x rounded to nearest, ties to even, s being the sign of a zero or an
   infinite result *)
Definition even_mantissa (f : spec_float) : bool :=
  match f with S754_finite _ m _ => Z.even (Zpos m) | _ => true end.
Definition rounds_to (prec emax : Z) (s : bool) (x : Q) (f : spec_float) : Prop :=
  (Qabs x < overflow_threshold prec emax ->
     is_fin f = true /\ valid_binary prec emax f = true /\
     (f = S754_zero (negb s) -> False) /\ in_format prec emax (valQ f) /\
     forall y, in_format prec emax y ->
       Qabs (valQ f - x) <= Qabs (y - x) /\
       (Qabs (valQ f - x) == Qabs (y - x) -> y == valQ f \/ even_mantissa f = true)) /\
  (overflow_threshold prec emax <= Qabs x -> f = S754_infinity s).
