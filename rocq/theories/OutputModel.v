(* OutputModel.v: model of the scalar code paths of internal/simd_wrappers.h
   (register blocks, broadcasting, loading), of the output stages
   (internal/output.h, public/output_stages.h) and of the vector maps
   (public/map.h 79-138).
   Simplifications: a register block is a list of scalars (kRegisterLanes = 1,
   the generic code path); template arguments (rows, columns, shapes) are
   ordinary arguments and the static asserts are run-time checks. *)
From Verif Require Import Base CommonModel PackModel FixedPointModel.

Fixpoint mapM {A B} (f : A -> option B) (l : list A) : option (list B) :=
  match l with
  | [] => Some []
  | a :: t => let* b := f a in let* u := mapM f t in Some (b :: u)
  end.
(* 0, 1, ..., n-1 *)
Definition zrange (n : Z) : list Z := map Z.of_nat (seq 0 (Z.to_nat n)).

(* simd_wrappers.h 44-73: RegisterBuffer / RegisterBlock *)
Record block := mk_block { b_rows : Z; b_cols : Z; b_reg : list Z }.
Definition reg (b : block) (i : Z) : option Z :=
  if 0 <=? i then nth_error (b_reg b) (Z.to_nat i) else None.
(* for (c < C) for (r < R) result.buf.reg[r + c * R] = f(r, c): the index
   i = r + c * R runs through 0, 1, ..., R * C - 1 in this order *)
Definition block_init (R C : Z) (f : Z -> Z -> option Z) : option block :=
  let* l := mapM (fun i => f (i mod R) (i / R)) (zrange (R * C)) in Some (mk_block R C l).
(* for (i < kRegisterCount) output.reg[i] = f(input.reg[i]) *)
Definition block_map (f : Z -> option Z) (b : block) : option block :=
  let* l := mapM f (b_reg b) in Some (mk_block (b_rows b) (b_cols b) l).

(* simd_wrappers.h 93-99 *)
Definition ShouldFlip (l r : block) : bool :=
  (b_rows l * b_cols l <? b_rows r * b_cols r) ||
  ((b_rows l * b_cols l =? b_rows r * b_cols r) && (b_rows l <? b_rows r)).

(* Common shape of 149-186, 198-235, 247-284, 296-333, 345-381: the operation
   op is Add, ShiftLeft, SaturatingRoundingDoublingHighMul,
   RoundingDivideByPOT or Mul *)
Definition BroadcastImpl (op : Z -> Z -> option Z) (l r : block) : option block :=
  let Rows := Z.max (b_rows l) (b_rows r) in
  let Cols := Z.max (b_cols l) (b_cols r) in
  check ((b_rows l =? Rows) || (b_rows l =? 1));
  check ((b_rows r =? Rows) || (b_rows r =? 1));
  check ((b_cols l =? Cols) || (b_cols l =? 1));
  check ((b_cols r =? Cols) || (b_cols r =? 1));
  block_init Rows Cols (fun rr cc =>
    let lhs_c := if b_cols l =? Cols then cc else 0 in
    let rhs_c := if b_cols r =? Cols then cc else 0 in
    let lhs_r := if b_rows l =? Rows then rr else 0 in
    let rhs_r := if b_rows r =? Rows then rr else 0 in
    let* x := reg l (lhs_r + lhs_c * b_rows l) in
    let* y := reg r (rhs_r + rhs_c * b_rows r) in
    op x y).
(* 188-196 and the like *)
Definition Broadcast (op : Z -> Z -> option Z) (l r : block) : option block :=
  if ShouldFlip l r then BroadcastImpl op r l else BroadcastImpl op l r.
Definition BroadcastAdd (m : ovf) := Broadcast (Add m 32).
Definition BroadcastMul (m : ovf) := Broadcast (Mul m 32).
Definition BroadcastShiftLeft (m : ovf) := Broadcast (ShiftLeft m 32).
Definition BroadcastSRDHM := Broadcast (fun x y => Some (SaturatingRoundingDoublingHighMul 32 x y)).
Definition BroadcastRDPOT (m : ovf) := Broadcast (RoundingDivideByPOT m 32).

(* simd_wrappers.h 40-42 *)
Definition MulAdd (m : ovf) (lhs rhs acc : Z) : option Z :=
  let* p := norm m 32 (lhs * rhs) in norm m 32 (acc + p).
(* 393-425 *)
Definition BroadcastMulAddImpl (m : ovf) (l r acc : block) : option block :=
  let Rows := b_rows acc in
  let Cols := b_cols acc in
  check ((b_rows l =? Rows) || (b_rows l =? 1));
  check ((b_rows r =? Rows) || (b_rows r =? 1));
  check ((b_cols l =? Cols) || (b_cols l =? 1));
  check ((b_cols r =? Cols) || (b_cols r =? 1));
  block_init Rows Cols (fun rr cc =>
    let lhs_c := if b_cols l =? Cols then cc else 0 in
    let rhs_c := if b_cols r =? Cols then cc else 0 in
    let lhs_r := if b_rows l =? Rows then rr else 0 in
    let rhs_r := if b_rows r =? Rows then rr else 0 in
    let* x := reg l (lhs_r + lhs_c * b_rows l) in
    let* y := reg r (rhs_r + rhs_c * b_rows r) in
    let* a := reg acc (rr + cc * Rows) in
    MulAdd m x y a).
(* 427-434 *)
Definition BroadcastMulAdd (m : ovf) (l r acc : block) : option block :=
  if ShouldFlip l r then BroadcastMulAddImpl m r l acc else BroadcastMulAddImpl m l r acc.

(* map.h 79-138 *)
Inductive vshape := VCol | VRow.
Record vmap := mk_vmap { vm_mem : mem; vm_base : Z; vm_size : Z }.
Inductive vec := VMap (sh : vshape) (v : vmap) | VDup (sh : vshape) (x size : Z).
Definition vec_shape (v : vec) : vshape := match v with VMap sh _ => sh | VDup sh _ _ => sh end.
Definition vec_size (v : vec) : Z := match v with VMap _ u => vm_size u | VDup _ _ s => s end.
Definition vec_get (v : vec) (i : Z) : option Z :=
  match v with VMap _ u => rd (vm_mem u) (vm_base u + i) | VDup _ x _ => Some x end.
(* map.h 104-109, 131-137 *)
Definition vec_block (v : vec) (start len : Z) : option vec :=
  check (0 <=? start); check (start + len <=? vec_size v);
  Some (match v with
        | VMap sh u => VMap sh (mk_vmap (vm_mem u) (vm_base u + start) len)
        | VDup sh x _ => VDup sh x len
        end).

(* simd_wrappers.h 524-617; R, C are the rows and columns of the block to
   broadcast to *)
Definition LoadForBroadcasting (R C : Z) (v : vec) (pos : Z) : option block :=
  match v with
  | VMap sh u =>
      let rows := match sh with VCol => R | VRow => 1 end in
      let cols := match sh with VRow => C | VCol => 1 end in
      block_init rows cols (fun r c =>
        let i := match sh with VCol => r | VRow => c end in vec_get v (pos + i))
  | VDup _ _ _ => block_init 1 1 (fun _ _ => vec_get v 0)
  end.
(* 442-458: Load from a column-major matrix map *)
Definition LoadColMajor (R C : Z) (src : mem) (M : matrix_map) (row col : Z) : option block :=
  block_init R C (fun r c => rd src (mm_addr M row (col + c) + r)).
(* 504-522 *)
Definition LoadContiguous (R C : Z) (src : mem) : option block :=
  block_init R C (fun r c => rd src (r + c * R)).
(* 619-641; the specialisation for 0 does nothing *)
Definition AddConstant (m : ovf) (k : Z) (b : block) : option block :=
  if k =? 0 then Some b else block_map (fun x => Add m 32 x k) b.

(* ------------------------------------------------------------------ *)
(* Output stages, output_stages.h 29-221.  STanh carries the four constants
   the evaluator's constructor derives with double arithmetic
   (output.h 376-392): they are arbitrary here. *)
Record tanh_consts := { tc_inv_norm : Z; tc_inv_nexp : Z; tc_amp_norm : Z; tc_amp_exp : Z }.
Inductive stage :=
  | SQuantizeDown (result_offset result_mult_int result_shift : Z)
  | SQuantizeDownPC (sh : vshape) (result_offset result_mult_int : vmap) (result_shift : Z)
  | SByFixedPoint (multiplier shift offset_after : Z)
  | SScaleExp (multiplier exponent offset_after : Z)
  | SScaleExpPC (sh : vshape) (multiplier exponent : vmap) (offset_after : Z)
  | SSatU8 | SSatI8 | SSatI16 | STruncU8
  | SBias (bias : vec)
  | SClamp (lo hi : Z)
  | STanh (zero amplitude : Z) (tc : tanh_consts).

Definition pos_of (sh : vshape) (row col : Z) : Z := match sh with VCol => row | VRow => col end.

(* C++ c ? a : d ? b : x *)
Definition sat3 (lo hi x : Z) : Z := if x >? hi then hi else if x <? lo then lo else x.

(* output.h 394-428: one register of the tanh stage *)
Definition tanh_reg (m : ovf) (zero amplitude : Z) (tc : tanh_consts) (x : Z) : option Z :=
  (* 365-373: constructor *)
  let* a8 := norm m 32 (8 * amplitude) in
  let* input_cutoff_min := norm m 32 (zero - a8) in
  let* input_cutoff_max := norm m 32 (zero + a8) in
  let* output_min := norm m 32 (zero - amplitude) in
  let* output_max := norm m 32 (zero + amplitude) in
  let* input_centered := Sub m 32 x zero in
  let fixedpoint_input := FMul 32 input_centered (tc_inv_norm tc) in
  let* fixedpoint_input := ShiftLeft m 32 fixedpoint_input (28 - tc_inv_nexp tc) in
  let* th := ftanh m 32 3 fixedpoint_input in
  let fixedpoint_output := FMul 32 th (tc_amp_norm tc) in
  let* sh := ShiftRight fixedpoint_output (31 - tc_amp_exp tc) in
  let* int32_output := Add m 32 zero sh in
  Some (SelectUsingMask (MaskIfLessThanOrEqual x input_cutoff_min) output_min
          (SelectUsingMask (MaskIfGreaterThanOrEqual x input_cutoff_max) output_max int32_output)).

(* the evaluators, on a block at global position (row, col) *)
Definition stage_eval (m : ovf) (s : stage) (input : block) (row col : Z) : option block :=
  let R := b_rows input in
  let C := b_cols input in
  match s with
  | SQuantizeDown off mult shift => (* output.h 65-90 *)
      block_map (fun x =>
        let* a := Add m 32 x off in
        let* p := Mul m 32 a mult in
        RoundingDivideByPOT m 32 p shift) input
  | SQuantizeDownPC sh off mult shift => (* 92-119 *)
      let pos := pos_of sh row col in
      let* result_mult_int := LoadForBroadcasting R C (VMap sh mult) pos in
      let* result_offset := LoadForBroadcasting R C (VMap sh off) pos in
      let* a := BroadcastAdd m input result_offset in
      let* dividend := BroadcastMul m a result_mult_int in
      block_map (fun x => RoundingDivideByPOT m 32 x shift) dividend
  | SByFixedPoint mult shift off => (* 121-148 *)
      block_map (fun x =>
        let h := SaturatingRoundingDoublingHighMul 32 x mult in
        let* q := RoundingDivideByPOT m 32 h shift in
        Add m 32 q off) input
  | SScaleExp mult e off => (* 150-181 *)
      let left_shift := Z.max 0 e in
      let* ne := norm m 32 (- e) in
      let right_shift := Z.max 0 ne in
      block_map (fun x =>
        let* s := ShiftLeft m 32 x left_shift in
        let h := SaturatingRoundingDoublingHighMul 32 s mult in
        let* q := RoundingDivideByPOT m 32 h right_shift in
        Add m 32 q off) input
  | SScaleExpPC sh mult ex off => (* 183-221 *)
      let pos := pos_of sh row col in
      let* left_shift := LoadForBroadcasting R C (VMap sh ex) pos in
      let* right_shift := LoadForBroadcasting R C (VMap sh ex) pos in
      let* multiplier := LoadForBroadcasting R C (VMap sh mult) pos in
      let* left_shift := block_map (fun x => Some (Z.max x 0)) left_shift in
      let* right_shift := block_map (fun x => let* n := norm m 32 (- x) in Some (Z.max n 0)) right_shift in
      let* sl := BroadcastShiftLeft m input left_shift in
      let* mulhigh_val := BroadcastSRDHM sl multiplier in
      let* rdpot_val := BroadcastRDPOT m mulhigh_val right_shift in
      block_map (fun x => Add m 32 x off) rdpot_val
  | SSatU8 => block_map (fun x => Some (sat3 0 255 x)) input (* 223-244 *)
  | SSatI8 => block_map (fun x => Some (sat3 (-128) 127 x)) input (* 246-267 *)
  | SSatI16 => block_map (fun x => Some (sat3 (-32768) 32767 x)) input (* 269-290 *)
  | STruncU8 => block_map (fun x => Some (wrapU 8 x)) input (* 292-312 *)
  | SBias v => (* 314-330 *)
      let* b := LoadForBroadcasting R C v (pos_of (vec_shape v) row col) in
      BroadcastAdd m input b
  | SClamp lo hi => block_map (fun x => Some (Z.min (Z.max x lo) hi)) input (* 332-354 *)
  | STanh zero amp tc => block_map (tanh_reg m zero amp tc) input (* 356-438 *)
  end.

(* output.h 469-506: the stages in order *)
Fixpoint pipeline_eval (m : ovf) (p : list stage) (input : block) (row col : Z) : option block :=
  match p with
  | [] => Some input
  | s :: t => let* b := stage_eval m s input row col in pipeline_eval m t b row col
  end.

(* output.h 514-525: the stores StoreFinalOutput performs, in order, as
   (address, value) pairs.  The result memory is only ever written, so the
   stores are the whole effect. *)
Definition StoreFinalOutput (src : block) (dst : matrix_map) (row col : Z) : option (list (Z * Z)) :=
  mapM (fun i =>
    let r := i / b_cols src in
    let c := i mod b_cols src in
    let* v := reg src (r + c * b_rows src) in
    Some (mm_addr dst (row + r) (col + c), v)) (zrange (b_rows src * b_cols src)).

(* output.h 536-567: OutputPipelineExecutor::Execute *)
Definition Execute (m : ovf) (p : list stage) (input : block) (dst : matrix_map)
           (src_global_row src_global_col dst_row dst_col : Z) : option (list (Z * Z)) :=
  let* output := pipeline_eval m p input src_global_row src_global_col in
  StoreFinalOutput output dst dst_row dst_col.

(* performing a list of stores on a memory; None: a store outside it *)
Fixpoint perform (log : list (Z * Z)) (m : mem) : option mem :=
  match log with
  | [] => Some m
  | (a, v) :: t => let* m' := wr m a v in perform t m'
  end.
