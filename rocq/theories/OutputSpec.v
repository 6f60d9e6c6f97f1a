(* OutputSpec.v: entry-wise meaning of the output stages: what one value at
   global position (r, c) becomes.  No register blocks, no broadcasting, no
   tiles. *)
From Verif Require Import Base FixedPointModel FixedPointSpec PackModel OutputModel.

Definition entry_of (v : vec) (r c : Z) : option Z :=
  match v with
  | VDup _ x _ => Some x
  | VMap VCol u => vm_mem u (vm_base u + r)
  | VMap VRow u => vm_mem u (vm_base u + c)
  end.

Definition quantize_at (m : ovf) (off mult shift x : Z) : option Z :=
  let* a := norm m 32 (x + off) in
  let* p := norm m 32 (a * mult) in
  RoundingDivideByPOT m 32 p shift.
Definition scale_at (m : ovf) (mult left right off x : Z) : option Z :=
  let* s := ShiftLeft m 32 x left in
  let* q := RoundingDivideByPOT m 32 (SaturatingRoundingDoublingHighMul 32 s mult) right in
  norm m 32 (q + off).

Definition stage_at (m : ovf) (s : stage) (r c x : Z) : option Z :=
  match s with
  | SQuantizeDown off mult shift => quantize_at m off mult shift x
  | SQuantizeDownPC sh off mult shift =>
      let* o := entry_of (VMap sh off) r c in
      let* k := entry_of (VMap sh mult) r c in
      quantize_at m o k shift x
  | SByFixedPoint mult shift off =>
      let* q := RoundingDivideByPOT m 32 (SaturatingRoundingDoublingHighMul 32 x mult) shift in
      norm m 32 (q + off)
  | SScaleExp mult e off =>
      let* n := norm m 32 (- e) in scale_at m mult (Z.max 0 e) (Z.max 0 n) off x
  | SScaleExpPC sh mult ex off =>
      let* k := entry_of (VMap sh mult) r c in
      let* e := entry_of (VMap sh ex) r c in
      let* n := norm m 32 (- e) in scale_at m k (Z.max 0 e) (Z.max 0 n) off x
  | SSatU8 => Some (Z.max 0 (Z.min 255 x))
  | SSatI8 => Some (Z.max (-128) (Z.min 127 x))
  | SSatI16 => Some (Z.max (-32768) (Z.min 32767 x))
  | STruncU8 => Some (x mod 256)
  | SBias v => let* b := entry_of v r c in norm m 32 (x + b)
  | SClamp lo hi => Some (Z.min hi (Z.max lo x))
  | STanh zero amp tc => tanh_reg m zero amp tc x
  end.

Fixpoint pipe_at (m : ovf) (p : list stage) (r c x : Z) : option Z :=
  match p with
  | [] => Some x
  | s :: t => let* y := stage_at m s r c x in pipe_at m t r c y
  end.

(* an R x C register block with entry g r c in row r, column c *)
Definition tile (R C : Z) (g : Z -> Z -> Z) : block :=
  mk_block R C (map (fun i => g (i mod R) (i / R)) (zrange (R * C))).
(* the vector, laid along the rows (VCol) or columns (VRow), has entry f r c at
   every position of the R x C tile at (row, col) *)
Definition vec_covers (sh : vshape) (v : vmap) (row col R C : Z) (f : Z -> Z -> Z) : Prop :=
  forall r c, 0 <= r < R -> 0 <= c < C ->
    vm_mem v (vm_base v + match sh with VCol => row + r | VRow => col + c end) = Some (f r c).
(* the formula in the comments of output_stages.h 34-38: (n + rounding) >> shift *)
Definition documented_shift (n shift : Z) : Z :=
  (n + (if shift <? 1 then 0 else 2 ^ (shift - 1))) / 2 ^ shift.
(* x * mult * 2^e / 2^31, with the errors of the two roundings *)
Definition scales_by_rounding (f : Z -> Z) (mult e : Z) : Prop :=
  (forall x, fits 32 x -> fits 32 (x * 2 ^ (Z.max 0 e)) -> ~ (x * 2 ^ (Z.max 0 e) = - 2 ^ 31 /\ mult = - 2 ^ 31) ->
    2 * Z.abs (f x * 2 ^ (31 + Z.max 0 (- e)) - x * 2 ^ (Z.max 0 e) * mult) <= (if 0 <=? e then 0 else 2 ^ (31 - e)) + 2 ^ 31) /\
  (0 <= mult -> forall x y, x <= y -> f x <= f y).
