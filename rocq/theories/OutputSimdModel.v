(* OutputSimdModel.v: model of the SSE, NEON and MSA code that turns int32
   accumulators into results: internal/simd_wrappers_sse.h,
   simd_wrappers_neon.h, simd_wrappers_msa.h, simd_wrappers_common_neon_sse.h,
   output_sse.h, output_neon.h, output_msa.h, and the templates of simd_wrappers.h, output.h and unpack.h
   instantiated with their register types.
   A 128-bit register is its number, as in SimdModel.v; 64-bit registers, the
   uint32 / int32 holding four bytes, and scalars are numbers too.  Code that is
   chosen by overloading or template specialisation is chosen here by the target
   and the shape of the block; None stands for code that does not compile (no
   specialisation exists and the generic code asserts scalar registers) as well
   as for undefined behaviour.  The sizes of the blocks are those unpack.h uses:
   8x4, 4x4, 1x4, 8x1, 4x1 and, for the last stores, 8x8; blocks of one entry
   are scalars.
   Left out: output_avx.h, an empty file. *)
From Verif Require Import Base SimdModel2 CommonModel PackModel FixedPointModel ComputeModel OutputModel UnpackModel SimdModel.

Inductive sty := I32 | I16 | U8 | I8.
Definition width (t : sty) : Z := match t with I32 => 32 | I16 => 16 | U8 => 8 | I8 => 8 end.
(* the value of type t with the low bits of u *)
Definition as_ty (t : sty) (u : Z) : Z := match t with U8 => wrapU 8 u | _ => wrapS (width t) u end.

Definition nthZ (l : list Z) (i : Z) : Z := nth (Z.to_nat i) l 0.
(* a register made of lanes of width w, lowest first; the lanes of a register *)
Definition regl (w : Z) (l : list Z) : Z := pack_n w (nthZ l) (length l).
Definition lanesU (w n : Z) (v : Z) : list Z := map (fun i => getU w i v) (zrange n).
Definition lanesS (w n : Z) (v : Z) : list Z := map (fun i => get w i v) (zrange n).

(* ------------------------------------------------------------------ *)
(* Register operations on Int32x4.
   SSE: simd_wrappers_sse.h 72-110 and fixedpoint_sse.h;
   NEON: simd_wrappers_neon.h 76-155 and fixedpoint_neon.h;
   MSA: simd_wrappers_msa.h 91-152 and fixedpoint_msa.h.  Mul of two NEON or MSA
   registers is the generic a * b of fixedpoint.h on GCC vectors. *)
Definition vmulq (a b : Z) : Z := SimdModel.map2 32 Z.mul a b.
Definition vmlaq (acc a b : Z) : Z := pack 32 (fun i => get 32 i acc + get 32 i a * get 32 i b).
Definition rDup (T : simd) (x : Z) : Z := match T with Sse => mm_set1 32 x | Neon => vdupq_n 32 x | Mips _ => msa_Dup 32 x end.
Definition rAdd (T : simd) (a b : Z) : Z := match T with Sse => sse_Add 32 a b | Neon => neon_Add 32 a b | Mips _ => msa_Add 32 a b end.
Definition rSub (T : simd) (a b : Z) : Z := match T with Sse => sse_Sub 32 a b | Neon => neon_Sub 32 a b | Mips _ => msa_Sub 32 a b end.
Definition rMul (T : simd) (a b : Z) : Z := match T with Sse => sse_Mul 32 a b | Neon | Mips _ => vmulq a b end.
(* Mul(Int32x4, int32); vmulq_n_s32; mulv_w of a and a fill *)
Definition rMulN (T : simd) (a x : Z) : Z := match T with Sse => sse_Mul 32 a (rDup Sse x) | Neon => vmulq a (vdupq_n 32 x) | Mips _ => vmulq a (msa_fill 32 x) end.
Definition rMin (T : simd) (a b : Z) : Z := SimdModel.map2 32 Z.min a b.
Definition rMax (T : simd) (a b : Z) : Z := SimdModel.map2 32 Z.max a b.
Definition rSRDHM (T : simd) (a b : Z) : Z :=
  match T with Sse => sse_SaturatingRoundingDoublingHighMul32 a b | Neon => neon_SaturatingRoundingDoublingHighMul 32 a b
  | Mips _ => msa_SaturatingRoundingDoublingHighMul 32 a b end.
Definition rShl (T : simd) (a n : Z) : Z := match T with Sse => sse_ShiftLeft 32 a n | Neon => neon_ShiftLeft 32 a n | Mips _ => msa_ShiftLeft 32 a n end.
Definition rShr (T : simd) (a n : Z) : Z := match T with Sse => sse_ShiftRight 32 a n | Neon => neon_ShiftRight 32 a n | Mips _ => msa_ShiftRight 32 a n end.
Definition rRDPOT (T : simd) (a e : Z) : option Z :=
  match T with Sse => sse_RoundingDivideByPOT 32 a e | Neon => Some (neon_RoundingDivideByPOT 32 a e)
  | Mips _ => Some (msa_RoundingDivideByPOT 32 a e) end.
Definition rSelect (T : simd) (m a b : Z) : Z :=
  match T with Sse => sse_SelectUsingMask m a b | Neon => neon_SelectUsingMask m a b | Mips _ => msa_SelectUsingMask m a b end.
Definition rLe (T : simd) (a b : Z) : Z :=
  match T with Sse => sse_MaskIfLessThanOrEqual 32 a b | Neon => neon_MaskIfLessThanOrEqual 32 a b | Mips _ => msa_MaskIfLessThanOrEqual 32 a b end.
Definition rGe (T : simd) (a b : Z) : Z :=
  match T with Sse => sse_MaskIfGreaterThanOrEqual 32 a b | Neon => neon_MaskIfGreaterThanOrEqual 32 a b | Mips _ => msa_MaskIfGreaterThanOrEqual 32 a b end.
Definition rDupLane (T : simd) (i a : Z) : Z := pack 32 (fun _ => get 32 i a).
(* MulByRhsLane *)
Definition rMulLane (T : simd) (i a b : Z) : Z := rMul T a (rDupLane T i b).
(* MulAdd(lhs, rhs, &acc), with a register, a scalar and a lane as rhs; maddv.w on
   MSA, simd_wrappers_msa.h 120-152 *)
Definition rMulAdd (T : simd) (a b acc : Z) : Z :=
  match T with Sse => sse_Add 32 acc (sse_Mul 32 a b) | Neon | Mips _ => vmlaq acc a b end.
Definition rMulAddN (T : simd) (a x acc : Z) : Z :=
  match T with Sse => sse_Add 32 acc (rMulN Sse a x) | Neon => vmlaq acc a (vdupq_n 32 x) | Mips _ => vmlaq acc a (msa_fill 32 x) end.
Definition rMulAddLane (T : simd) (i a b acc : Z) : Z :=
  match T with Sse => sse_Add 32 acc (rMulLane Sse i a b) | Neon | Mips _ => vmlaq acc a (rDupLane T i b) end.
Definition vo (T : simd) : vops := match T with Sse => sse 32 | Neon => neon 32 | Mips _ => vops_of 32 (SimdModel2.simd Msa 32) end.

(* ------------------------------------------------------------------ *)
(* Register blocks: simd_wrappers.h 44-73 with the register types of
   simd_wrappers_sse.h 28-46, simd_wrappers_neon.h 30-58 and simd_wrappers_msa.h
   28-45 *)
Record sblock := mk_sblock { s_ty : sty; s_rows : Z; s_cols : Z; s_regs : list Z }.
Definition s_count (b : sblock) : Z := s_rows b * s_cols b.
Definition sreg (b : sblock) (i : Z) : Z := nthZ (s_regs b) i.
(* scalars per register, for a block of n scalars *)
Definition lanes_of (T : simd) (t : sty) (n : Z) : Z :=
  match t, T with
  | I32, _ => if 4 <=? n then 4 else 1
  | I16, Sse | I16, Mips _ => if 8 <=? n then 8 else 1
  | I16, Neon => if 8 <=? n then 8 else if 4 <=? n then 4 else 1
  | U8, Sse | U8, Mips _ => if 16 <=? n then 16 else if 4 <=? n then 4 else 1
  | U8, Neon => if 8 <=? n then 8 else if 4 <=? n then 4 else 1
  | I8, _ => if 8 <=? n then 8 else if 4 <=? n then 4 else 1
  end.
Definition to_block (b : sblock) : block := mk_block (s_rows b) (s_cols b) (s_regs b).
Definition of_block (b : block) : sblock := mk_sblock I32 (b_rows b) (b_cols b) (b_reg b).
Definition is_1x1 (b : sblock) : bool := (s_rows b =? 1) && (s_cols b =? 1).

(* ---- loads ---- *)
(* LoadInt32x4 *)
Definition LoadInt32x4 (src : mem) (a : Z) : option Z :=
  let* l := mapM (fun i => rd src (a + i)) (zrange 4) in Some (regl 32 l).
(* simd_wrappers_common_neon_sse.h 24-51 (4xN, 8xN), 53-67 (1x4), from a column-major map *)
Definition LoadColMajorV (R C : Z) (src : mem) (M : matrix_map) (row col : Z) : option sblock :=
  if R =? 4 then
    let* l := mapM (fun i => LoadInt32x4 src (mm_addr M row (col + i))) (zrange C) in
    Some (mk_sblock I32 R C l)
  else if R =? 8 then
    let* l := mapM (fun k => LoadInt32x4 src (mm_addr M (row + 4 * (k mod 2)) (col + k / 2))) (zrange (2 * C)) in
    Some (mk_sblock I32 R C l)
  else if (R =? 1) && (C =? 4) then
    let* buf := mapM (fun i => rd src (mm_addr M row (col + i))) (zrange 4) in
    Some (mk_sblock I32 R C [regl 32 buf])
  else None.
(* simd_wrappers_common_neon_sse.h 108-174, simd_wrappers.h 558-601: n consecutive entries from pos *)
Definition load_vec (v : vec) (pos n : Z) : option (list Z) :=
  match v with
  | VMap _ u =>
      if n =? 1 then let* x := vec_get v pos in Some [x]
      else if (n =? 4) || (n =? 8) then mapM (fun k => LoadInt32x4 (vm_mem u) (vm_base u + (pos + 4 * k))) (zrange (n / 4))
      else None
  | VDup _ _ _ => let* x := vec_get v 0 in Some [x]
  end.
Definition LoadForBroadcastingV (R C : Z) (v : vec) (pos : Z) : option sblock :=
  match v with
  | VMap VCol _ => let* l := load_vec v pos R in Some (mk_sblock I32 R 1 l)
  | VMap VRow _ => let* l := load_vec v pos C in Some (mk_sblock I32 1 C l)
  | VDup _ _ _ => let* l := load_vec v pos 1 in Some (mk_sblock I32 1 1 l)
  end.
(* simd_wrappers_sse.h 112-143, simd_wrappers_neon.h 157-199, simd_wrappers_msa.h
   154-185: 8x8 entries of type t from a buffer *)
Definition LoadContiguousV (T : simd) (t : sty) (src : mem) : option sblock :=
  let n := lanes_of T t 64 in
  let* l := mapM (fun k => let* l := mapM (fun i => rd src (n * k + i)) (zrange n) in Some (regl (width t) l)) (zrange (64 / n)) in
  Some (mk_sblock t 8 8 l).

(* ---- broadcasting ---- *)
Definition ShouldFlipV (l r : sblock) : bool :=
  (s_count l <? s_count r) || ((s_count l =? s_count r) && (s_rows l <? s_rows r)).
(* the pairs of shapes with a specialisation: 
   simd_wrappers_common_neon_sse.h 194-351 (Add), 353-555
   (SaturatingRoundingDoublingHighMul), 557-690 (Mul), simd_wrappers_neon.h
   201-358 (ShiftLeft), 360-545 (RoundingDivideByPOT); 1x8 does not occur *)
Definition bcast_shapes : list ((Z * Z) * (Z * Z)) :=
  [((4, 1), (1, 1)); ((1, 4), (1, 1)); ((4, 1), (4, 1)); ((1, 4), (1, 4)); ((4, 4), (1, 4)); ((4, 4), (4, 1));
   ((8, 1), (1, 1)); ((8, 1), (8, 1)); ((8, 4), (1, 4)); ((8, 4), (8, 1))].
Definition shape_eqb (a b : Z * Z) : bool := (fst a =? fst b) && (snd a =? snd b).
Definition has_bcast (l r : sblock) : bool :=
  existsb (fun q => shape_eqb (fst q) (s_rows l, s_cols l) && shape_eqb (snd q) (s_rows r, s_cols r)) bcast_shapes.
(* the operand of register i of lhs: the whole rhs, its scalar, a lane of it, or
   one of its registers *)
Definition expand (T : simd) (l r : sblock) (i : Z) : Z :=
  if is_1x1 r then rDup T (sreg r 0)
  else if shape_eqb (s_rows l, s_cols l) (s_rows r, s_cols r) then sreg r i
  else if s_rows r =? 1 then rDupLane T (i / (s_rows l / 4)) (sreg r 0)
  else sreg r (i mod (s_rows l / 4)).
Definition BroadcastImplV (T : simd) (op1 opv : Z -> Z -> option Z) (l r : sblock) : option sblock :=
  if is_1x1 l && is_1x1 r then
    let* b := BroadcastImpl op1 (to_block l) (to_block r) in Some (of_block b)
  else if has_bcast l r then
    let* regs := mapM (fun i => opv (sreg l i) (expand T l r i)) (zrange (s_count l / 4)) in
    Some (mk_sblock I32 (s_rows l) (s_cols l) regs)
  else None.
Definition BroadcastV (T : simd) (op1 opv : Z -> Z -> option Z) (l r : sblock) : option sblock :=
  if ShouldFlipV l r then BroadcastImplV T op1 opv r l else BroadcastImplV T op1 opv l r.
Definition BroadcastAddV (T : simd) (m : ovf) := BroadcastV T (Add m 32) (fun a b => Some (rAdd T a b)).
Definition BroadcastMulV (T : simd) (m : ovf) := BroadcastV T (Mul m 32) (fun a b => Some (rMul T a b)).
Definition BroadcastSRDHMV (T : simd) :=
  BroadcastV T (fun x y => Some (SaturatingRoundingDoublingHighMul 32 x y)) (fun a b => Some (rSRDHM T a b)).
Definition BroadcastShiftLeftV (T : simd) (m : ovf) :=
  BroadcastV T (ShiftLeft m 32) (fun a b => match T with Neon => Some (neon_ShiftLeftV 32 a b) | _ => None end).
Definition BroadcastRDPOTV (T : simd) (m : ovf) :=
  BroadcastV T (RoundingDivideByPOT m 32) (fun a b => match T with Neon => Some (neon_RoundingDivideByPOTV 32 a b) | _ => None end).

(* simd_wrappers_common_neon_sse.h 692-846, simd_wrappers.h 427-434; of two
   matching specialisations the more special one, all computing the same *)
Definition BroadcastMulAddImplV (T : simd) (m : ovf) (l r acc : sblock) : option sblock :=
  let R := s_rows acc in
  let C := s_cols acc in
  let k := R / 4 in
  let upd f := mk_sblock I32 R C (map (fun i => f i (sreg acc i)) (zrange (s_count acc / 4))) in
  let lsh := (s_rows l, s_cols l) in
  let rsh := (s_rows r, s_cols r) in
  if shape_eqb rsh (1, 1) then
    if shape_eqb lsh (1, 1) then
      if is_1x1 acc then
        let* z := MulAdd m (sreg l 0) (sreg r 0) (sreg acc 0) in Some (mk_sblock I32 1 1 [z])
      else (* 737-749, 800-811 *)
        let* x := Mul m 32 (sreg l 0) (sreg r 0) in
        let p := rDup T x in
        Some (upd (fun _ a => rAdd T a p))
    else if shape_eqb lsh (R, C) then (* 692-703, 724-735, 813-822, 837-846 *)
      let p := sreg r 0 in
      Some (upd (fun i a => rMulAddN T (sreg l i) p a))
    else if shape_eqb lsh (4, 1) && (R =? 4) then (* 824-835 *)
      let p := rMulN T (sreg l 0) (sreg r 0) in
      Some (upd (fun _ a => rAdd T p a))
    else if shape_eqb lsh (R, 1) then (* 705-722 *)
      let p := sreg r 0 in
      Some (upd (fun i a => rAdd T a (rMulN T (sreg l (i mod k)) p)))
    else if shape_eqb lsh (1, 4) && (C =? 4) then (* 778-798 *)
      let p := rMulN T (sreg l 0) (sreg r 0) in
      Some (upd (fun i a => rAdd T (rDupLane T (i / k) p) a))
    else None
  else if shape_eqb rsh (1, 4) && shape_eqb lsh (R, 1) && (C =? 4) && negb (R =? 1) then (* 761-776 *)
    let p := sreg r 0 in
    Some (upd (fun i a => rMulAddLane T (i / k) (sreg l (i mod k)) p a))
  else None.
Definition BroadcastMulAddV (T : simd) (m : ovf) (l r acc : sblock) : option sblock :=
  if ShouldFlipV l r then BroadcastMulAddImplV T m r l acc else BroadcastMulAddImplV T m l r acc.

(* for (i < kRegisterCount) reg[i] = ...: on a scalar block or on registers *)
Definition map_regs (f1 fv : Z -> option Z) (b : sblock) : option sblock :=
  let* l := mapM (if is_1x1 b then f1 else fv) (s_regs b) in
  Some (mk_sblock (s_ty b) (s_rows b) (s_cols b) l).
(* simd_wrappers.h 619-640 *)
Definition AddConstantV (T : simd) (m : ovf) (k : Z) (b : sblock) : option sblock :=
  if k =? 0 then Some b else map_regs (fun x => Add m 32 x k) (fun x => Some (rAdd T x (rDup T k))) b.

(* ------------------------------------------------------------------ *)
(* Output stages on a block of Int32x4 registers *)

(* output.h 394-428 on a register; the members of the evaluator are computed as
   in OutputModel.tanh_reg *)
Definition tanh_regV (T : simd) (m : ovf) (zero amplitude : Z) (tc : tanh_consts) (x : Z) : option Z :=
  let* a8 := norm m 32 (8 * amplitude) in
  let* input_cutoff_min := norm m 32 (zero - a8) in
  let* input_cutoff_max := norm m 32 (zero + a8) in
  let* output_min := norm m 32 (zero - amplitude) in
  let* output_max := norm m 32 (zero + amplitude) in
  let input_centered := rSub T x (rDup T zero) in
  let fixedpoint_input := rSRDHM T input_centered (rDup T (tc_inv_norm tc)) in
  let fixedpoint_input := rShl T fixedpoint_input (28 - tc_inv_nexp tc) in
  let* th := v_tanh (vo T) 32 3 fixedpoint_input in
  let fixedpoint_output := rSRDHM T th (rDup T (tc_amp_norm tc)) in
  let int32_output := rAdd T (rDup T zero) (rShr T fixedpoint_output (31 - tc_amp_exp tc)) in
  Some (rSelect T (rLe T x (rDup T input_cutoff_min)) (rDup T output_min)
          (rSelect T (rGe T x (rDup T input_cutoff_max)) (rDup T output_max) int32_output)).

(* saturation to an unsigned byte *)
Definition satU8 (x : Z) : Z := Z.max 0 (Z.min 255 x).
(* SSE: _mm_packs_epi32, _mm_packus_epi16, _mm_extract_epi16 stored in an int16 *)
Definition mm_packs_epi32 (a b : Z) : Z := regl 16 (map (saturate 16) (lanesS 32 4 a ++ lanesS 32 4 b)).
Definition mm_packus_epi16 (a b : Z) : Z := regl 8 (map satU8 (lanesS 16 8 a ++ lanesS 16 8 b)).
Definition extract16 (i a : Z) : Z := wrapS 16 (getU 16 i a).
(* NEON: vqmovn_s32, vqmovn_s16, vqmovun_s16, vcombine, vget_low, vget_high *)
Definition vqmovn_s32 (a : Z) : Z := regl 16 (map (saturate 16) (lanesS 32 4 a)).
Definition vqmovn_s16 (a : Z) : Z := regl 8 (map (saturate 8) (lanesS 16 8 a)).
Definition vqmovun_s16 (a : Z) : Z := regl 8 (map satU8 (lanesS 16 8 a)).
Definition vcombine (lo hi : Z) : Z := regl 64 [lo; hi].
Definition vget_low (a : Z) : Z := getU 64 0 a.
Definition vget_high (a : Z) : Z := getU 64 1 a.

(* output_sse.h 26-104 *)
Definition sse_cast_u8 (l : list Z) : option (list Z) :=
  match l with
  | [a0] =>
      let res_16 := mm_packs_epi32 a0 a0 in
      let res_8 := mm_packus_epi16 res_16 res_16 in
      Some [getU 32 0 res_8]
  | [a0; a1] =>
      let res_16 := mm_packs_epi32 a0 a1 in
      let res_8 := mm_packus_epi16 res_16 res_16 in
      Some [getU 32 0 res_8; getU 32 1 res_8]
  | [a0; a1; a2; a3] =>
      let res_16_0 := mm_packs_epi32 a0 a1 in
      let res_16_1 := mm_packs_epi32 a2 a3 in
      Some [mm_packus_epi16 res_16_0 res_16_1]
  | [a0; a1; a2; a3; a4; a5; a6; a7] =>
      let res_16_0 := mm_packs_epi32 a0 a1 in
      let res_16_1 := mm_packs_epi32 a2 a3 in
      let res_16_2 := mm_packs_epi32 a4 a5 in
      let res_16_3 := mm_packs_epi32 a6 a7 in
      Some [mm_packus_epi16 res_16_0 res_16_1; mm_packus_epi16 res_16_2 res_16_3]
  | _ => None
  end.
(* output_sse.h 106-180 *)
Definition sse_cast_i16 (l : list Z) : option (list Z) :=
  match l with
  | [a0] =>
      let res_16 := mm_packs_epi32 a0 a0 in
      Some [extract16 0 res_16; extract16 1 res_16; extract16 2 res_16; extract16 3 res_16]
  | [a0; a1] => Some [mm_packs_epi32 a0 a1]
  | [a0; a1; a2; a3] => Some [mm_packs_epi32 a0 a1; mm_packs_epi32 a2 a3]
  | [a0; a1; a2; a3; a4; a5; a6; a7] =>
      Some [mm_packs_epi32 a0 a1; mm_packs_epi32 a2 a3; mm_packs_epi32 a4 a5; mm_packs_epi32 a6 a7]
  | _ => None
  end.
(* output_neon.h 26-108, 110-192 (narrow is vqmovun_s16 or vqmovn_s16; word is
   vget_lane_u32 or vget_lane_s32) *)
Definition neon_cast_8 (narrow word : Z -> Z) (l : list Z) : option (list Z) :=
  match l with
  | [a0] =>
      let res_16 := vqmovn_s32 a0 in
      Some [word (narrow (vcombine res_16 res_16))]
  | [a0; a1] => Some [narrow (vcombine (vqmovn_s32 a0) (vqmovn_s32 a1))]
  | [a0; a1; a2; a3] =>
      Some [narrow (vcombine (vqmovn_s32 a0) (vqmovn_s32 a1)); narrow (vcombine (vqmovn_s32 a2) (vqmovn_s32 a3))]
  | [a0; a1; a2; a3; a4; a5; a6; a7] =>
      Some [narrow (vcombine (vqmovn_s32 a0) (vqmovn_s32 a1)); narrow (vcombine (vqmovn_s32 a2) (vqmovn_s32 a3));
            narrow (vcombine (vqmovn_s32 a4) (vqmovn_s32 a5)); narrow (vcombine (vqmovn_s32 a6) (vqmovn_s32 a7))]
  | _ => None
  end.
(* output_neon.h 194-271 *)
Definition neon_cast_i16 (l : list Z) : option (list Z) :=
  match l with
  | [a0] => Some [vqmovn_s32 a0]
  | [a0; a1] => Some [vcombine (vqmovn_s32 a0) (vqmovn_s32 a1)]
  | [a0; a1; a2; a3] => Some [vcombine (vqmovn_s32 a0) (vqmovn_s32 a1); vcombine (vqmovn_s32 a2) (vqmovn_s32 a3)]
  | [a0; a1; a2; a3; a4; a5; a6; a7] =>
      Some [vcombine (vqmovn_s32 a0) (vqmovn_s32 a1); vcombine (vqmovn_s32 a2) (vqmovn_s32 a3);
            vcombine (vqmovn_s32 a4) (vqmovn_s32 a5); vcombine (vqmovn_s32 a6) (vqmovn_s32 a7)]
  | _ => None
  end.
(* MSA: maxi_s with 0; pckev: the even lanes of wt, then those of ws *)
Definition msa_maxi0 (w a : Z) : Z := SimdModel.map1 w (Z.max 0) a.
Definition msa_pckev (w ws wt : Z) : Z :=
  regl w (map (fun i => getU w (2 * i) wt) (zrange (64 / w)) ++ map (fun i => getU w (2 * i) ws) (zrange (64 / w))).
(* output_msa.h 26-86 and the macro GEMMLOWP_MIPS_SAT_U8_16, 88-143 *)
Definition msa_sat_u8_16 (in0 in1 in2 in3 : Z) : Z :=
  let tmp0 := msa_pckev 16 (msa_sat 32 in1 8) (msa_sat 32 in0 8) in
  let tmp2 := msa_pckev 16 (msa_sat 32 in3 8) (msa_sat 32 in2 8) in
  msa_pckev 8 (msa_maxi0 16 tmp2) (msa_maxi0 16 tmp0).
Definition msa_cast_u8 (l : list Z) : option (list Z) :=
  match l with
  | [a0] =>
      let tmp := msa_maxi0 32 (msa_sat 32 a0 8) in
      let tmp := msa_pckev 16 tmp tmp in
      let tmp := msa_pckev 8 tmp tmp in
      Some [getU 32 0 tmp]
  | [a0; a1] =>
      let tmp_lo := msa_maxi0 16 (msa_pckev 16 (msa_sat 32 a1 8) (msa_sat 32 a0 8)) in
      let tmp_lo := msa_pckev 8 tmp_lo tmp_lo in
      Some [getU 32 0 tmp_lo; getU 32 1 tmp_lo]
  | [a0; a1; a2; a3] => Some [msa_sat_u8_16 a0 a1 a2 a3]
  | [a0; a1; a2; a3; a4; a5; a6; a7] => Some [msa_sat_u8_16 a0 a1 a2 a3; msa_sat_u8_16 a4 a5 a6 a7]
  | _ => None
  end.
(* output_msa.h 147-168 and the macro GEMMLOWP_MIPS_SAT_I16_8, 170-231 *)
Definition msa_sat_i16_8 (in0 in1 : Z) : Z := msa_pckev 16 (msa_sat 32 in1 15) (msa_sat 32 in0 15).
Definition msa_cast_i16 (l : list Z) : option (list Z) :=
  match l with
  | [a0] =>
      let tmp := msa_sat 32 a0 15 in
      Some [get 16 0 tmp; get 16 2 tmp; get 16 4 tmp; get 16 6 tmp]
  | [a0; a1] => Some [msa_sat_i16_8 a0 a1]
  | [a0; a1; a2; a3] => Some [msa_sat_i16_8 a0 a1; msa_sat_i16_8 a2 a3]
  | [a0; a1; a2; a3; a4; a5; a6; a7] =>
      Some [msa_sat_i16_8 a0 a1; msa_sat_i16_8 a2 a3; msa_sat_i16_8 a4 a5; msa_sat_i16_8 a6 a7]
  | _ => None
  end.
(* output_msa.h 235-344: TruncatingCastToUint8, which has vector code only here *)
Definition msa_trunc_u8 (l : list Z) : option (list Z) :=
  match l with
  | [a0] =>
      let tmp := msa_pckev 16 a0 a0 in
      let tmp := msa_pckev 8 tmp tmp in
      Some [getU 32 0 tmp]
  | [a0; a1] =>
      let tmp := msa_pckev 16 a1 a0 in
      let tmp := msa_pckev 8 tmp tmp in
      Some [getU 32 0 tmp; getU 32 1 tmp]
  | [a0; a1; a2; a3] => Some [msa_pckev 8 (msa_pckev 16 a3 a2) (msa_pckev 16 a1 a0)]
  | [a0; a1; a2; a3; a4; a5; a6; a7] =>
      Some [msa_pckev 8 (msa_pckev 16 a3 a2) (msa_pckev 16 a1 a0); msa_pckev 8 (msa_pckev 16 a7 a6) (msa_pckev 16 a5 a4)]
  | _ => None
  end.
Definition cast_regs (T : simd) (t : sty) (l : list Z) : option (list Z) :=
  match T, t with
  | Sse, U8 => sse_cast_u8 l
  | Sse, I16 => sse_cast_i16 l
  | Neon, U8 => neon_cast_8 vqmovun_s16 (getU 32 0) l
  | Neon, I8 => neon_cast_8 vqmovn_s16 (get 32 0) l
  | Neon, I16 => neon_cast_i16 l
  | Mips _, U8 => msa_cast_u8 l
  | Mips _, I16 => msa_cast_i16 l
  | _, _ => None
  end.

(* the evaluators of output.h on a block of Int32x4 registers at global position
   (row, col); the lines are those of OutputModel.stage_eval *)
Definition stage_evalV (T : simd) (m : ovf) (s : stage) (input : sblock) (row col : Z) : option sblock :=
  let R := s_rows input in
  let C := s_cols input in
  let on_regs f := let* l := mapM f (s_regs input) in Some (mk_sblock I32 R C l) in
  let cast t := let* l := cast_regs T t (s_regs input) in Some (mk_sblock t R C l) in
  match s_ty input with
  | I32 =>
    match s with
    | SQuantizeDown off mult shift =>
        on_regs (fun x => rRDPOT T (rMulN T (rAdd T x (rDup T off)) mult) shift)
    | SQuantizeDownPC sh off mult shift =>
        let pos := pos_of sh row col in
        let* result_mult_int := LoadForBroadcastingV R C (VMap sh mult) pos in
        let* result_offset := LoadForBroadcastingV R C (VMap sh off) pos in
        let* a := BroadcastAddV T m input result_offset in
        let* dividend := BroadcastMulV T m a result_mult_int in
        let* l := mapM (fun x => rRDPOT T x shift) (s_regs dividend) in
        Some (mk_sblock I32 R C l)
    | SByFixedPoint mult shift off =>
        on_regs (fun x =>
          let mulhigh_val := rSRDHM T x (rDup T mult) in
          let* q := rRDPOT T mulhigh_val shift in
          Some (rAdd T q (rDup T off)))
    | SScaleExp mult e off =>
        let left_shift := Z.max 0 e in
        let* ne := norm m 32 (- e) in
        let right_shift := Z.max 0 ne in
        on_regs (fun x =>
          let mulhigh_val := rSRDHM T (rShl T x left_shift) (rDup T mult) in
          let* q := rRDPOT T mulhigh_val right_shift in
          Some (rAdd T q (rDup T off)))
    | SScaleExpPC sh mult ex off =>
        match T with
        | Sse | Mips _ => None
        | Neon =>
          let pos := pos_of sh row col in
          let* left_shift := LoadForBroadcastingV R C (VMap sh ex) pos in
          let* right_shift := LoadForBroadcastingV R C (VMap sh ex) pos in
          let* multiplier := LoadForBroadcastingV R C (VMap sh mult) pos in
          let* left_shift := map_regs (fun x => Some (Z.max x 0)) (fun x => Some (rMax T x (rDup T 0))) left_shift in
          let* right_shift := map_regs (fun x => let* n := norm m 32 (- x) in Some (Z.max n 0))
                                (fun x => Some (rMax T (vneg 32 x) (rDup T 0))) right_shift in
          let* sl := BroadcastShiftLeftV T m input left_shift in
          let* mulhigh_val := BroadcastSRDHMV T sl multiplier in
          let* rdpot_val := BroadcastRDPOTV T m mulhigh_val right_shift in
          let* l := mapM (fun x => Some (rAdd T x (rDup T off))) (s_regs rdpot_val) in
          Some (mk_sblock I32 R C l)
        end
    | SSatU8 => cast U8
    | SSatI8 => cast I8
    | SSatI16 => cast I16
    | STruncU8 =>
        match T with
        | Sse | Neon => None
        | Mips _ => let* l := msa_trunc_u8 (s_regs input) in Some (mk_sblock U8 R C l)
        end
    | SBias v =>
        let* b := LoadForBroadcastingV R C v (pos_of (vec_shape v) row col) in
        BroadcastAddV T m input b
    | SClamp lo hi => on_regs (fun x => Some (rMin T (rMax T x (rDup T lo)) (rDup T hi)))
    | STanh zero amp tc => on_regs (tanh_regV T m zero amp tc)
    end
  | _ => None
  end.
Fixpoint pipeline_evalV (T : simd) (m : ovf) (p : list stage) (input : sblock) (row col : Z) : option sblock :=
  match p with
  | [] => Some input
  | s :: t => let* b := stage_evalV T m s input row col in pipeline_evalV T m t b row col
  end.

(* ------------------------------------------------------------------ *)
(* Stores: lists of (address, value) pairs in program order *)

(* store of n consecutive scalars of type t; store of one lane *)
Definition vst (t : sty) (n a v : Z) : list (Z * Z) := map (fun i => (a + i, as_ty t (getU (width t) i v))) (zrange n).
Definition vst_lane (t : sty) (a v i : Z) : list (Z * Z) := [(a, as_ty t (getU (width t) i v))].
(* unpacklo / unpackhi: interleaving of the low or high halves *)
Definition unpacklo (w a b : Z) : Z :=
  regl w (flat_map (fun i => [getU w i a; getU w i b]) (zrange (64 / w))).
Definition unpackhi (w a b : Z) : Z :=
  regl w (flat_map (fun i => [getU w (64 / w + i) a; getU w (64 / w + i) b]) (zrange (64 / w))).
(* vtrn on n lanes of width w: val[0] and val[1] *)
Definition vtrn0 (w n a b : Z) : Z :=
  regl w (flat_map (fun i => [getU w (2 * i) a; getU w (2 * i) b]) (zrange (n / 2))).
Definition vtrn1 (w n a b : Z) : Z :=
  regl w (flat_map (fun i => [getU w (2 * i + 1) a; getU w (2 * i + 1) b]) (zrange (n / 2))).

(* output_sse.h 247-259, output_neon.h 327-340, output_msa.h 411-427; ilvr(ws, wt)
   and ilvl(ws, wt) of MSA are unpacklo and unpackhi of wt and ws *)
Definition transpose4 (T : simd) (r0 r1 r2 r3 : Z) : list Z :=
  match T with
  | Sse | Mips _ =>
      let t0 := unpacklo 32 r0 r1 in
      let t1 := unpacklo 32 r2 r3 in
      let t2 := unpackhi 32 r0 r1 in
      let t3 := unpackhi 32 r2 r3 in
      [unpacklo 64 t0 t1; unpackhi 64 t0 t1; unpacklo 64 t2 t3; unpackhi 64 t2 t3]
  | Neon =>
      let t00 := vtrn0 32 4 r0 r1 in
      let t01 := vtrn1 32 4 r0 r1 in
      let t10 := vtrn0 32 4 r2 r3 in
      let t11 := vtrn1 32 4 r2 r3 in
      [vcombine (vget_low t00) (vget_low t10); vcombine (vget_low t01) (vget_low t11);
       vcombine (vget_high t00) (vget_high t10); vcombine (vget_high t01) (vget_high t11)]
  end.
(* the stores shared by the targets: 4 rows of the transpose of registers i0..i3 at row r, column c *)
Definition st_transpose4 (T : simd) (at_ : Z -> Z -> Z) (b : sblock) (i0 i1 i2 i3 r c : Z) : list (Z * Z) :=
  let t := transpose4 T (sreg b i0) (sreg b i1) (sreg b i2) (sreg b i3) in
  flat_map (fun i => vst I32 4 (at_ (r + i) c) (nthZ t i)) (zrange 4).
(* int32 blocks: output_sse.h 182-215, 261-276, 293-323, 348-399, 443-456;
   output_neon.h 273-291, 342-354, 385-418, 456-509, 511-543;
   output_msa.h 346-379, 429-444, 461-491, 516-567, 627-640 *)
Definition store_i32 (T : simd) (o : map_order) (at_ : Z -> Z -> Z) (b : sblock) : option (list (Z * Z)) :=
  match s_rows b, s_cols b, o with
  | 4, 1, ColMajor => Some (vst I32 4 (at_ 0 0) (sreg b 0))
  | 4, 1, RowMajor => Some (flat_map (fun i => vst_lane I32 (at_ i 0) (sreg b 0) i) (zrange 4))
  | 8, 1, ColMajor => Some (vst I32 4 (at_ 0 0) (sreg b 0) ++ vst I32 4 (at_ 4 0) (sreg b 1))
  | 8, 1, RowMajor => Some (flat_map (fun i => vst_lane I32 (at_ i 0) (sreg b (i / 4)) (i mod 4)) (zrange 8))
  | 1, 4, ColMajor => Some (flat_map (fun i => vst_lane I32 (at_ 0 i) (sreg b 0) i) (zrange 4))
  | 1, 4, RowMajor => Some (vst I32 4 (at_ 0 0) (sreg b 0))
  | 4, 4, ColMajor => Some (flat_map (fun i => vst I32 4 (at_ 0 i) (sreg b i)) (zrange 4))
  | 4, 4, RowMajor => Some (st_transpose4 T at_ b 0 1 2 3 0 0)
  | 8, 4, ColMajor =>
      Some (flat_map (fun i => vst I32 4 (at_ 0 i) (sreg b (2 * i)) ++ vst I32 4 (at_ 4 i) (sreg b (2 * i + 1))) (zrange 4))
  | 8, 4, RowMajor => Some (st_transpose4 T at_ b 0 2 4 6 0 0 ++ st_transpose4 T at_ b 1 3 5 7 4 0)
  | 8, 8, ColMajor =>
      Some (flat_map (fun i => vst I32 4 (at_ 0 i) (sreg b (2 * i)) ++ vst I32 4 (at_ 4 i) (sreg b (2 * i + 1))) (zrange 8))
  | 8, 8, RowMajor =>
      Some (st_transpose4 T at_ b 0 2 4 6 0 0 ++ st_transpose4 T at_ b 1 3 5 7 4 0 ++
            st_transpose4 T at_ b 8 10 12 14 0 4 ++ st_transpose4 T at_ b 9 11 13 15 4 4)
  | _, _, _ => None
  end.
(* buf[...]: the registers stored one after another, then the entries copied
   one by one, column by column (cols) or row by row (rows) *)
Definition buffer (t : sty) (n : Z) (b : sblock) : list Z :=
  flat_map (fun v => map (fun i => as_ty t (getU (width t) i v)) (zrange n)) (s_regs b).
Definition copy_cols (at_ : Z -> Z -> Z) (R C : Z) (buf : list Z) : list (Z * Z) :=
  flat_map (fun c => map (fun r => (at_ r c, nthZ buf (r + R * c))) (zrange R)) (zrange C).
Definition copy_rows (at_ : Z -> Z -> Z) (R C : Z) (buf : list Z) : list (Z * Z) :=
  flat_map (fun r => map (fun c => (at_ r c, nthZ buf (r + R * c))) (zrange C)) (zrange R).
(* *dst = reg >> (8 * i), for 4 bytes from a uint32 or int32 *)
Definition st_bytes (t : sty) (at_ : Z -> Z) (v : Z) : list (Z * Z) :=
  map (fun i => (at_ i, as_ty t (Z.shiftr v (8 * i)))) (zrange 4).

(* int16 blocks on SSE: output_sse.h 217-245, 278-291, 325-346, 401-441; 1x4 is
   the generic code on scalars, output.h 514-525.  On MSA the same: output_msa.h
   381-409, 446-459, 493-514, 569-625 *)
Definition store_i16_sse (o : map_order) (at_ : Z -> Z -> Z) (b : sblock) : option (list (Z * Z)) :=
  match s_rows b, s_cols b, o with
  | 4, 1, _ => Some (map (fun i => (at_ i 0, sreg b i)) (zrange 4))
  | 1, 4, _ => Some (map (fun i => (at_ 0 i, sreg b i)) (zrange 4))
  | 8, 1, ColMajor => Some (vst I16 8 (at_ 0 0) (sreg b 0))
  | 8, 1, RowMajor => Some (flat_map (fun i => vst_lane I16 (at_ i 0) (sreg b 0) i) (zrange 8))
  | 4, 4, _ => Some (copy_rows at_ 4 4 (buffer I16 8 b))
  | 8, 4, ColMajor => Some (flat_map (fun i => vst I16 8 (at_ 0 i) (sreg b i)) (zrange 4))
  | 8, 4, RowMajor => Some (copy_rows at_ 8 4 (buffer I16 8 b))
  | 8, 8, ColMajor => Some (flat_map (fun i => vst I16 8 (at_ 0 i) (sreg b i)) (zrange 8))
  | 8, 8, RowMajor =>
      let t0 := unpacklo 16 (sreg b 0) (sreg b 1) in
      let t1 := unpacklo 16 (sreg b 2) (sreg b 3) in
      let u0 := unpacklo 32 t0 t1 in
      let u1 := unpackhi 32 t0 t1 in
      let t2 := unpacklo 16 (sreg b 4) (sreg b 5) in
      let t3 := unpacklo 16 (sreg b 6) (sreg b 7) in
      let u2 := unpacklo 32 t2 t3 in
      let u3 := unpackhi 32 t2 t3 in
      let t4 := unpackhi 16 (sreg b 0) (sreg b 1) in
      let t5 := unpackhi 16 (sreg b 2) (sreg b 3) in
      let u4 := unpacklo 32 t4 t5 in
      let u5 := unpackhi 32 t4 t5 in
      let t6 := unpackhi 16 (sreg b 4) (sreg b 5) in
      let t7 := unpackhi 16 (sreg b 6) (sreg b 7) in
      let u6 := unpacklo 32 t6 t7 in
      let u7 := unpackhi 32 t6 t7 in
      Some (vst I16 8 (at_ 0 0) (unpacklo 64 u0 u2) ++ vst I16 8 (at_ 1 0) (unpackhi 64 u0 u2) ++
            vst I16 8 (at_ 2 0) (unpacklo 64 u1 u3) ++ vst I16 8 (at_ 3 0) (unpackhi 64 u1 u3) ++
            vst I16 8 (at_ 4 0) (unpacklo 64 u4 u6) ++ vst I16 8 (at_ 5 0) (unpackhi 64 u4 u6) ++
            vst I16 8 (at_ 6 0) (unpacklo 64 u5 u7) ++ vst I16 8 (at_ 7 0) (unpackhi 64 u5 u7))
  | _, _, _ => None
  end.
(* uint8 blocks on SSE: output_sse.h 458-536; 538-557, for a MatrixMap, is the
   same through a copy of the map *)
Definition store_u8_sse (o : map_order) (at_ : Z -> Z -> Z) (b : sblock) : option (list (Z * Z)) :=
  match s_rows b, s_cols b with
  | 4, 1 => Some (st_bytes U8 (fun i => at_ i 0) (sreg b 0))
  | 8, 1 => Some (st_bytes U8 (fun i => at_ i 0) (sreg b 0) ++ st_bytes U8 (fun i => at_ (4 + i) 0) (sreg b 1))
  | 1, 4 => Some (st_bytes U8 (fun i => at_ 0 i) (sreg b 0))
  | 4, 4 => Some (copy_cols at_ 4 4 (buffer U8 16 b))
  | 8, 4 => Some (copy_cols at_ 8 4 (buffer U8 16 b))
  | 8, 8 => Some (copy_cols at_ 8 8 (buffer U8 16 b))
  | _, _ => None
  end.
(* word store to off(a): sw or swc1, or swr to off(a) and swl to off + 3(a), which
   together store the word (C61_swr_swl_store_the_word) *)
Definition sw_at (a off v : Z) : list (Z * Z) := vst U8 4 (a + off) v.
(* the pointers of output_msa.h 717-721, 794-800: addu d, s, t; lsa d, s, t, k
   adds t to s shifted by k *)
Definition mips_ptr (dst_ptr0 stride i : Z) : Z :=
  let dst_ptr1 := dst_ptr0 + stride in
  let dst_ptr2 := Z.shiftl stride 1 + dst_ptr0 in
  let dst_ptr3 := Z.shiftl stride 1 + dst_ptr1 in
  nthZ [dst_ptr0; dst_ptr1; dst_ptr2; dst_ptr3; Z.shiftl stride 2 + dst_ptr0; Z.shiftl stride 2 + dst_ptr1;
        Z.shiftl stride 2 + dst_ptr2; Z.shiftl stride 2 + dst_ptr3] i.
(* output_msa.h 709-783 (n = 2) and 884-1006 (n = 4): half-vectors with a stride.
   sdc1 stores the low half of a register; copy_s.w copies a lane *)
Definition MipsMsaStore_halves (v : mips_asm) (n : Z) (src : Z -> Z) (dst_ptr stride : Z) : list (Z * Z) :=
  let p := mips_ptr dst_ptr stride in
  flat_map (fun i =>
    match v with
    | Rev6 => vst U8 8 (p (2 * i)) (src i) ++ vst U8 8 (p (2 * i + 1)) (unpackhi 64 (src i) (src i))
    | _ =>
        sw_at (p (2 * i)) 0 (get 32 0 (src i)) ++ sw_at (p (2 * i)) 4 (get 32 1 (src i)) ++
        sw_at (p (2 * i + 1)) 0 (get 32 2 (src i)) ++ sw_at (p (2 * i + 1)) 4 (get 32 3 (src i))
    end) (zrange n).
(* output_msa.h 785-882: quarter-vectors with a stride; swc1 stores the low quarter *)
Definition MipsMsaStore8x4 (v : mips_asm) (src : Z -> Z) (dst_ptr stride : Z) : list (Z * Z) :=
  let p := mips_ptr dst_ptr stride in
  flat_map (fun i =>
    (match v with Rev6 => vst U8 4 (p (4 * i)) (src i) | _ => sw_at (p (4 * i)) 0 (get 32 0 (src i)) end) ++
    sw_at (p (4 * i + 1)) 0 (get 32 1 (src i)) ++ sw_at (p (4 * i + 2)) 0 (get 32 2 (src i)) ++
    sw_at (p (4 * i + 3)) 0 (get 32 3 (src i))) (zrange 2).
(* output_msa.h 1011-1042 *)
Definition transpose8x4_msa (b : sblock) : list Z :=
  let tmp0 := unpacklo 8 (sreg b 0) (sreg b 1) in
  let tmp1 := unpackhi 8 (sreg b 0) (sreg b 1) in
  [unpacklo 8 tmp0 tmp1; unpackhi 8 tmp0 tmp1].
Definition transpose8x8_msa (b : sblock) : list Z :=
  let t0 := unpacklo 8 (sreg b 0) (sreg b 1) in
  let t1 := unpackhi 8 (sreg b 0) (sreg b 1) in
  let t2 := unpacklo 8 (sreg b 2) (sreg b 3) in
  let t3 := unpackhi 8 (sreg b 2) (sreg b 3) in
  let u0 := unpacklo 8 t0 t1 in
  let u1 := unpackhi 8 t0 t1 in
  let u2 := unpacklo 8 t2 t3 in
  let u3 := unpackhi 8 t2 t3 in
  [unpacklo 32 u0 u2; unpackhi 32 u0 u2; unpacklo 32 u1 u3; unpackhi 32 u1 u3].
(* uint8 blocks on MSA: output_msa.h 642-688; 8x4 and 8x8: 1044-1071 with assembly,
   1075-1105 without *)
Definition store_u8_msa (v : mips_asm) (o : map_order) (at_ : Z -> Z -> Z) (stride : Z) (b : sblock) : option (list (Z * Z)) :=
  match v, s_rows b, s_cols b, o with
  | NoAsm, 8, 4, _ => Some (copy_cols at_ 8 4 (buffer U8 16 b))
  | NoAsm, 8, 8, _ => Some (copy_cols at_ 8 8 (buffer U8 16 b))
  | _, 8, 4, ColMajor => Some (MipsMsaStore_halves v 2 (sreg b) (at_ 0 0) stride)
  | _, 8, 4, RowMajor => Some (MipsMsaStore8x4 v (nthZ (transpose8x4_msa b)) (at_ 0 0) stride)
  | _, 8, 8, ColMajor => Some (MipsMsaStore_halves v 4 (sreg b) (at_ 0 0) stride)
  | _, 8, 8, RowMajor => Some (MipsMsaStore_halves v 4 (nthZ (transpose8x8_msa b)) (at_ 0 0) stride)
  | _, 4, 1, _ => Some (st_bytes U8 (fun i => at_ i 0) (sreg b 0))
  | _, 8, 1, _ => Some (st_bytes U8 (fun i => at_ i 0) (sreg b 0) ++ st_bytes U8 (fun i => at_ (4 + i) 0) (sreg b 1))
  | _, 1, 4, _ => Some (st_bytes U8 (fun i => at_ 0 i) (sreg b 0))
  | _, 4, 4, _ => Some (copy_cols at_ 4 4 (buffer U8 16 b))
  | _, _, _, _ => None
  end.
(* int16 blocks on NEON: output_neon.h 293-325, 356-383, 420-454, 545-560, 856-918 *)
Definition store_i16_neon (o : map_order) (at_ : Z -> Z -> Z) (b : sblock) : option (list (Z * Z)) :=
  match s_rows b, s_cols b, o with
  | 4, 1, ColMajor => Some (vst I16 4 (at_ 0 0) (sreg b 0))
  | 4, 1, RowMajor => Some (flat_map (fun i => vst_lane I16 (at_ i 0) (sreg b 0) i) (zrange 4))
  | 8, 1, ColMajor => Some (vst I16 8 (at_ 0 0) (sreg b 0))
  | 8, 1, RowMajor => Some (flat_map (fun i => vst_lane I16 (at_ i 0) (sreg b 0) i) (zrange 8))
  | 1, 4, RowMajor => Some (vst I16 4 (at_ 0 0) (sreg b 0))
  | 1, 4, ColMajor => Some (flat_map (fun i => vst_lane I16 (at_ 0 i) (sreg b 0) i) (zrange 4))
  | 4, 4, ColMajor =>
      Some (vst I16 4 (at_ 0 0) (vget_low (sreg b 0)) ++ vst I16 4 (at_ 0 1) (vget_high (sreg b 0)) ++
            vst I16 4 (at_ 0 2) (vget_low (sreg b 1)) ++ vst I16 4 (at_ 0 3) (vget_high (sreg b 1)))
  | 4, 4, RowMajor =>
      let t00 := vtrn0 16 4 (vget_low (sreg b 0)) (vget_high (sreg b 0)) in
      let t01 := vtrn1 16 4 (vget_low (sreg b 0)) (vget_high (sreg b 0)) in
      let t10 := vtrn0 16 4 (vget_low (sreg b 1)) (vget_high (sreg b 1)) in
      let t11 := vtrn1 16 4 (vget_low (sreg b 1)) (vget_high (sreg b 1)) in
      let t0 := vtrn0 32 4 (vcombine t00 t01) (vcombine t10 t11) in
      let t1 := vtrn1 32 4 (vcombine t00 t01) (vcombine t10 t11) in
      Some (vst I16 4 (at_ 0 0) (vget_low t0) ++ vst I16 4 (at_ 1 0) (vget_high t0) ++
            vst I16 4 (at_ 2 0) (vget_low t1) ++ vst I16 4 (at_ 3 0) (vget_high t1))
  | 8, 4, ColMajor => Some (flat_map (fun i => vst I16 8 (at_ 0 i) (sreg b i)) (zrange 4))
  | 8, 4, RowMajor =>
      let t00 := vtrn0 16 8 (sreg b 0) (sreg b 1) in
      let t01 := vtrn1 16 8 (sreg b 0) (sreg b 1) in
      let t10 := vtrn0 16 8 (sreg b 2) (sreg b 3) in
      let t11 := vtrn1 16 8 (sreg b 2) (sreg b 3) in
      let u00 := vtrn0 32 4 t00 t10 in
      let u01 := vtrn1 32 4 t00 t10 in
      let u10 := vtrn0 32 4 t01 t11 in
      let u11 := vtrn1 32 4 t01 t11 in
      Some (vst I16 4 (at_ 0 0) (vget_low u00) ++ vst I16 4 (at_ 1 0) (vget_low u10) ++
            vst I16 4 (at_ 2 0) (vget_low u01) ++ vst I16 4 (at_ 3 0) (vget_low u11) ++
            vst I16 4 (at_ 4 0) (vget_high u00) ++ vst I16 4 (at_ 5 0) (vget_high u10) ++
            vst I16 4 (at_ 6 0) (vget_high u01) ++ vst I16 4 (at_ 7 0) (vget_high u11))
  | 8, 8, ColMajor => Some (flat_map (fun i => vst I16 8 (at_ 0 i) (sreg b i)) (zrange 8))
  | 8, 8, RowMajor =>
      let a0 f := f 16 8 (sreg b 0) (sreg b 1) in
      let a1 f := f 16 8 (sreg b 2) (sreg b 3) in
      let a2 f := f 16 8 (sreg b 4) (sreg b 5) in
      let a3 f := f 16 8 (sreg b 6) (sreg b 7) in
      let b0 f := f 32 4 (a0 vtrn0) (a1 vtrn0) in
      let b1 f := f 32 4 (a0 vtrn1) (a1 vtrn1) in
      let b2 f := f 32 4 (a2 vtrn0) (a3 vtrn0) in
      let b3 f := f 32 4 (a2 vtrn1) (a3 vtrn1) in
      Some (vst I16 4 (at_ 0 0) (vget_low (b0 vtrn0)) ++ vst I16 4 (at_ 0 4) (vget_low (b2 vtrn0)) ++
            vst I16 4 (at_ 1 0) (vget_low (b1 vtrn0)) ++ vst I16 4 (at_ 1 4) (vget_low (b3 vtrn0)) ++
            vst I16 4 (at_ 2 0) (vget_low (b0 vtrn1)) ++ vst I16 4 (at_ 2 4) (vget_low (b2 vtrn1)) ++
            vst I16 4 (at_ 3 0) (vget_low (b1 vtrn1)) ++ vst I16 4 (at_ 3 4) (vget_low (b3 vtrn1)) ++
            vst I16 4 (at_ 4 0) (vget_high (b0 vtrn0)) ++ vst I16 4 (at_ 4 4) (vget_high (b2 vtrn0)) ++
            vst I16 4 (at_ 5 0) (vget_high (b1 vtrn0)) ++ vst I16 4 (at_ 5 4) (vget_high (b3 vtrn0)) ++
            vst I16 4 (at_ 6 0) (vget_high (b0 vtrn1)) ++ vst I16 4 (at_ 6 4) (vget_high (b2 vtrn1)) ++
            vst I16 4 (at_ 7 0) (vget_high (b1 vtrn1)) ++ vst I16 4 (at_ 7 4) (vget_high (b3 vtrn1)))
  | _, _, _ => None
  end.
(* uint8 and int8 blocks on NEON: output_neon.h 562-707, 709-854 *)
Definition transpose8_neon (b : sblock) : list Z :=
  let a0 f := f 8 8 (sreg b 0) (sreg b 1) in
  let a1 f := f 8 8 (sreg b 2) (sreg b 3) in
  let a2 f := f 8 8 (sreg b 4) (sreg b 5) in
  let a3 f := f 8 8 (sreg b 6) (sreg b 7) in
  let b0 f := f 16 4 (a0 vtrn0) (a1 vtrn0) in
  let b1 f := f 16 4 (a0 vtrn1) (a1 vtrn1) in
  let b2 f := f 16 4 (a2 vtrn0) (a3 vtrn0) in
  let b3 f := f 16 4 (a2 vtrn1) (a3 vtrn1) in
  let c0 f := f 32 2 (b0 vtrn0) (b2 vtrn0) in
  let c1 f := f 32 2 (b1 vtrn0) (b3 vtrn0) in
  let c2 f := f 32 2 (b0 vtrn1) (b2 vtrn1) in
  let c3 f := f 32 2 (b1 vtrn1) (b3 vtrn1) in
  [c0 vtrn0; c1 vtrn0; c2 vtrn0; c3 vtrn0; c0 vtrn1; c1 vtrn1; c2 vtrn1; c3 vtrn1].
Definition store_8_neon (t : sty) (o : map_order) (at_ : Z -> Z -> Z) (b : sblock) : option (list (Z * Z)) :=
  match s_rows b, s_cols b, o with
  | 4, 1, _ => Some (st_bytes t (fun i => at_ i 0) (sreg b 0))
  | 1, 4, _ => Some (st_bytes t (fun i => at_ 0 i) (sreg b 0))
  | 8, 1, ColMajor => Some (vst t 8 (at_ 0 0) (sreg b 0))
  | 8, 1, RowMajor => Some (flat_map (fun i => vst_lane t (at_ i 0) (sreg b 0) i) (zrange 8))
  | 4, 4, _ => Some (flat_map (fun i => flat_map (fun j => vst_lane t (at_ (j mod 4) (2 * i + j / 4)) (sreg b i) j) (zrange 8)) (zrange 2))
  | 8, 4, ColMajor => Some (flat_map (fun i => vst t 8 (at_ 0 i) (sreg b i)) (zrange 4))
  | 8, 4, RowMajor => Some (flat_map (fun i => flat_map (fun j => vst_lane t (at_ j i) (sreg b i) j) (zrange 8)) (zrange 4))
  | 8, 8, ColMajor => Some (flat_map (fun i => vst t 8 (at_ 0 i) (sreg b i)) (zrange 8))
  | 8, 8, RowMajor => Some (flat_map (fun i => vst t 8 (at_ i 0) (nthZ (transpose8_neon b) i)) (zrange 8))
  | _, _, _ => None
  end.
(* StoreFinalOutput; at_ r c is dst->data(row + r, col + c): the pointers the
   SSE and NEON code forms from dst->data(row, col) and the strides are the same.
   The MSA assembly gets cols_stride() of a column-major and rows_stride() of a
   row-major map, or stride(), all three the same *)
Definition StoreFinalOutputV (T : simd) (b : sblock) (dst : matrix_map) (row col : Z) : option (list (Z * Z)) :=
  let at_ r c := mm_addr dst (row + r) (col + c) in
  match s_ty b, T with
  | I32, _ => store_i32 T (mm_order dst) at_ b
  | I16, Sse | I16, Mips _ => store_i16_sse (mm_order dst) at_ b
  | I16, Neon => store_i16_neon (mm_order dst) at_ b
  | U8, Sse => store_u8_sse (mm_order dst) at_ b
  | U8, Neon => store_8_neon U8 (mm_order dst) at_ b
  | I8, Neon => store_8_neon I8 (mm_order dst) at_ b
  | U8, Mips v => store_u8_msa v (mm_order dst) at_ (mm_stride dst) b
  | I8, Sse | I8, Mips _ => None
  end.

(* ------------------------------------------------------------------ *)
(* swr and swl on a little-endian processor: the bytes of v that fall into the
   word of address a, upwards from a (swr) or up to a (swl, from the highest byte
   of v down) *)
Definition swr (a v : Z) : list (Z * Z) := map (fun i => (a + i, getU 8 i v)) (zrange (4 - a mod 4)).
Definition swl (a v : Z) : list (Z * Z) := map (fun i => (a - a mod 4 + i, getU 8 (3 - a mod 4 + i) v)) (zrange (a mod 4 + 1)).

(* unpack.h 89-127 with these registers.  For a single entry everything is
   scalar: the generic code of OutputModel.v (the 1x1 specialisation of
   BroadcastMulAdd, 751-759, computes the same) *)
Definition UnpackResultBlockV (T : simd) (m : ovf) (k : kernel_fmt) (R C : Z) (src : mem) (src_map : matrix_map)
    (p : list stage) (dst : matrix_map) (lhs_sums rhs_sums lhs_offset rhs_offset : vec)
    (depth src_row src_col src_global_row src_global_col dst_row dst_col : Z)
  : option (list (Z * Z)) :=
  if (R =? 1) && (C =? 1) then
    UnpackResultBlock m k R C src src_map p dst lhs_sums rhs_sums lhs_offset rhs_offset
      depth src_row src_col src_global_row src_global_col dst_row dst_col
  else
  let* acc := LoadColMajorV R C src src_map src_row src_col in
  let* lhs_sums_block := LoadForBroadcastingV R C lhs_sums src_row in
  let* rhs_sums_block := LoadForBroadcastingV R C rhs_sums src_col in
  let* lhs_offset_block := LoadForBroadcastingV R C lhs_offset src_row in
  let* rhs_offset_block := LoadForBroadcastingV R C rhs_offset src_col in
  let* lhs_offset_block := AddConstantV T m (sf_zp (kf_lhs k)) lhs_offset_block in
  let* rhs_offset_block := AddConstantV T m (sf_zp (kf_rhs k)) rhs_offset_block in
  let* acc := BroadcastMulAddV T m lhs_sums_block rhs_offset_block acc in
  let* rhs_offset_block := map_regs (fun x => Mul m 32 x depth) (fun x => Some (rMulN T x depth)) rhs_offset_block in
  let* s := BroadcastAddV T m rhs_sums_block rhs_offset_block in
  let* acc := BroadcastMulAddV T m s lhs_offset_block acc in
  let* output := pipeline_evalV T m p acc src_global_row src_global_col in
  StoreFinalOutputV T output dst dst_row dst_col.

(* unpack.h 129-276 with these registers.  The 8x8 block is loaded from a
   DstScalar buffer as a block of DstScalar (unpack.h 157-158, 181-193); ty is that
   type, which is also the type the pipeline makes, StoreFinalOutput having no
   conversions.  With 1x1 tiles everything is scalar. *)
Definition UnpackResultV (T : simd) (m : ovf) (k : kernel_fmt) (ty : sty) (junk : Z -> Z) (dst : matrix_map) (blk : bounds)
    (src : mem) (src_map : matrix_map) (depth : Z) (lhs_sums_mem rhs_sums_mem : mem)
    (lhs_offset rhs_offset : vec) (p : list stage) : option (list (Z * Z)) :=
  check (0 <=? bb_row blk); check (bb_row blk + bb_rows blk <=? mm_rows dst);
  check (0 <=? bb_col blk); check (bb_col blk + bb_cols blk <=? mm_cols dst);
  let lhs_sums := VMap VCol (mk_vmap lhs_sums_mem 0 (bb_rows blk)) in
  let rhs_sums := VMap VRow (mk_vmap rhs_sums_mem 0 (bb_cols blk)) in
  UnpackTiles
    (fun R C d => UnpackResultBlockV T m k R C src src_map p d lhs_sums rhs_sums lhs_offset rhs_offset depth)
    (fun buf r c => let* b := LoadContiguousV T ty buf in StoreFinalOutputV T b dst r c)
    junk dst blk.
