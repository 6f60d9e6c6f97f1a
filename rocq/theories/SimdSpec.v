(* SimdSpec.v: what a lane of a 128-bit register is, independently of the model *)
From Coq Require Import ZArith.
Local Open Scope Z_scope.

(* the signed value of bits w*i .. w*i+w-1 of v, two's complement *)
Definition lane (w i v : Z) : Z :=
  let u := (v / 2 ^ (w * i)) mod 2 ^ w in if u <? 2 ^ (w - 1) then u else u - 2 ^ w.
Definition a_lane (w i : Z) : Prop := (w = 16 /\ 0 <= i < 8) \/ (w = 32 /\ 0 <= i < 4).
Definition a_register (v : Z) : Prop := 0 <= v < 2 ^ 128.
(* every lane all ones or all zeroes *)
Definition a_mask (w v : Z) : Prop := forall i, a_lane w i -> lane w i v = 0 \/ lane w i v = -1.
