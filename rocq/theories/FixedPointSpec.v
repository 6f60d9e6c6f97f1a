(* FixedPointSpec.v: what the fixed-point primitives are supposed to compute,
   written only with exact integer arithmetic (no model helper). *)
From Coq Require Import ZArith.
Local Open Scope Z_scope.

(* value range of a w-bit signed integer *)
Definition fits (w z : Z) : Prop := - 2 ^ (w - 1) <= z <= 2 ^ (w - 1) - 1.
Definition clampZ (lo hi x : Z) : Z := if x <? lo then lo else if hi <? x then hi else x.
Definition clamp_int (w x : Z) : Z := clampZ (- 2 ^ (w - 1)) (2 ^ (w - 1) - 1) x.

(* q is an integer nearest to the rational n/d (d > 0) *)
Definition nearest (q n d : Z) : Prop := 2 * Z.abs (q * d - n) <= d.
(* n/d is exactly half way between two integers *)
Definition is_tie (n d : Z) : Prop := exists k, 2 * n = (2 * k + 1) * d.
(* nearest, ties away from zero *)
Definition nearest_away (q n d : Z) : Prop :=
  nearest q n d /\ (is_tie n d -> Z.abs n <= Z.abs (q * d)).
(* nearest, ties toward plus infinity *)
Definition nearest_up (q n d : Z) : Prop :=
  nearest q n d /\ (is_tie n d -> n <= q * d).

(* functional versions *)
Definition rnd_up (n d : Z) : Z := (2 * n + d) / (2 * d).
Definition rnd_away (n d : Z) : Z := Z.sgn n * ((2 * Z.abs n + d) / (2 * d)).

(* the rational denoted by a raw value with ib integer bits in a w-bit type *)
From Coq Require Import QArith.
Definition fpvalue (w ib raw : Z) : Q := (inject_Z (raw * 2 ^ ib) / inject_Z (2 ^ (w - 1)))%Q.
Definition ulp (w ib : Z) : Q := (inject_Z (2 ^ ib) / inject_Z (2 ^ (w - 1)))%Q.
