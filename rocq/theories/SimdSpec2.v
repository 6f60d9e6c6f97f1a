(* SimdSpec2.v: the lanes of a register on each target *)
From Coq Require Import ZArith.
From Verif Require Import SimdSpec SimdModel2.
Local Open Scope Z_scope.

(* AVX registers have 256 bits, the others 128 *)
Definition register_bits (t : target) : Z := match t with Avx => 256 | _ => 128 end.
Definition has_lane (t : target) (w i : Z) : Prop := (w = 16 \/ w = 32) /\ 0 <= i /\ (i + 1) * w <= register_bits t.
Definition is_register (t : target) (v : Z) : Prop := 0 <= v < 2 ^ register_bits t.
(* every lane all ones or all zeroes *)
Definition is_mask (t : target) (w v : Z) : Prop := forall i, has_lane t w i -> lane w i v = 0 \/ lane w i v = -1.
