(* OutputSimdSpec.v: on which targets a pipeline has vector code, the type of its
   results, and when a value meets no overflow the vector code treats
   differently.  Entry-wise: no registers, no blocks. *)
From Verif Require Import Base FixedPointModel FixedPointSpec PackModel ComputeModel OutputModel OutputSpec OutputSimdModel.

Definition i32 (x : Z) : Prop := - 2147483648 <= x <= 2147483647.

(* the type a stage makes of int32 values; None: no vector code on this target
   for every tile of unpack.h *)
Definition stage_ty (T : simd) (s : stage) : option sty :=
  match s with
  | SSatU8 => Some U8
  | SSatI16 => Some I16
  | SSatI8 => match T with Neon => Some I8 | _ => None end
  | STruncU8 => match T with Mips _ => Some U8 | _ => None end
  | SScaleExpPC _ _ _ _ => match T with Neon => Some I32 | _ => None end
  | SBias (VDup _ _ _) => None
  | _ => Some I32
  end.
Fixpoint pipe_ty (T : simd) (p : list stage) : option sty :=
  match p with
  | [] => Some I32
  | s :: t =>
      match stage_ty T s with
      | Some I32 => pipe_ty T t
      | Some ty => match t with [] => Some ty | _ => None end
      | None => None
      end
  end.

Definition entry_i32 (v : vec) (r c : Z) : Prop := forall x, entry_of v r c = Some x -> i32 x.
(* a left shift that does not overflow, and a product that is not (-2^31)^2 on SSE *)
Definition scale_safe (T : simd) (mult e x : Z) : Prop :=
  e <= 30 /\ i32 (x * 2 ^ (Z.max 0 e)) /\ (T = Sse -> ~ (x * 2 ^ (Z.max 0 e) = - 2147483648 /\ mult = - 2147483648)).
(* int32 parameters, and no overflow on which the vector code differs *)
Definition stage_safe (T : simd) (s : stage) (r c x : Z) : Prop :=
  match s with
  | SQuantizeDown off mult _ => i32 off /\ i32 mult
  | SQuantizeDownPC sh off mult _ => entry_i32 (VMap sh off) r c /\ entry_i32 (VMap sh mult) r c
  | SByFixedPoint mult _ off => i32 mult /\ i32 off /\ (T = Sse -> ~ (x = - 2147483648 /\ mult = - 2147483648))
  | SScaleExp mult e off => i32 mult /\ i32 e /\ i32 off /\ scale_safe T mult e x
  | SScaleExpPC sh mult ex off =>
      i32 off /\ entry_i32 (VMap sh mult) r c /\ entry_i32 (VMap sh ex) r c /\
      forall k e, entry_of (VMap sh mult) r c = Some k -> entry_of (VMap sh ex) r c = Some e -> scale_safe T k e x
  | SBias v => entry_i32 v r c
  | SClamp lo hi => i32 lo /\ i32 hi
  | STanh zero amp tc =>
      i32 zero /\ i32 (8 * amp) /\ i32 (zero - 8 * amp) /\ i32 (zero + 8 * amp) /\
      - 2147483648 < tc_inv_norm tc <= 2147483647 /\ - 2147483648 < tc_amp_norm tc <= 2147483647 /\
      (x <= zero - 8 * amp \/ zero + 8 * amp <= x \/
       i32 (x - zero) /\ 28 - tc_inv_nexp tc <= 30 /\
       - 2147483648 < SaturatingRoundingDoublingHighMul 32 (x - zero) (tc_inv_norm tc) * 2 ^ (28 - tc_inv_nexp tc) <= 2147483647)
  | SSatU8 | SSatI8 | SSatI16 | STruncU8 => True
  end.
Fixpoint pipe_safe (T : simd) (m : ovf) (p : list stage) (r c x : Z) : Prop :=
  match p with
  | [] => True
  | s :: t => stage_safe T s r c x /\ forall y, stage_at m s r c x = Some y -> pipe_safe T m t r c y
  end.
