(* SimdModel2.v: model of /repo/fixedpoint/fixedpoint_avx.h, fixedpoint_wasmsimd.h
   and fixedpoint_msa.h, and of the templates of fixedpoint.h instantiated with
   their register types.  Registers are integers as in SimdModel.v; those of AVX
   have 256 bits.  The intrinsics are modelled after Intel's, the WebAssembly
   proposal's and MIPS's descriptions of them. *)
From Verif Require Import Base FixedPointModel SimdModel.

(* ------------------------------------------------------------------ *)
(* AVX2: apart from the bit operations, the tests and blendv, the instructions used
   do on each 128-bit half what the SSE instruction does *)
Definition half (k : Z) (v : reg) : reg := wrapU 128 (Z.shiftr v (128 * k)).
Definition both (lo hi : reg) : reg := wrapU 128 lo + wrapU 128 hi * 2 ^ 128.
Definition halves1 (f : reg -> reg) (a : reg) : reg := both (f (half 0 a)) (f (half 1 a)).
Definition halves2 (f : reg -> reg -> reg) (a b : reg) : reg := both (f (half 0 a) (half 0 b)) (f (half 1 a) (half 1 b)).
Definition mm256_set1 (w x : Z) : reg := both (mm_set1 w x) (mm_set1 w x).
Definition mm256_testz (a b : reg) : Z := b2z (Z.land a b =? 0).
Definition mm256_testc (a b : reg) : Z := b2z (Z.ldiff b a =? 0).
(* the top bit of each 32-bit lane of the mask chooses *)
Definition mm256_blendv_ps (a b mask : reg) : reg :=
  both (pack 32 (fun i => if get 32 i mask <? 0 then get 32 i b else get 32 i a))
       (pack 32 (fun i => if get 32 (4 + i) mask <? 0 then get 32 (4 + i) b else get 32 (4 + i) a)).

(* fixedpoint_avx.h; w = 32 for __m256i, w = 16 for int16x16_m256i *)
Definition avx_Dup (w x : Z) : reg := mm256_set1 w x.                    (* 366-374 *)
Definition avx_BitAnd (a b : reg) : reg := Z.land a b.                   (* 52-60 *)
Definition avx_BitOr (a b : reg) : reg := Z.lor a b.                     (* 62-70 *)
Definition avx_BitXor (a b : reg) : reg := Z.lxor a b.                   (* 72-80 *)
Definition avx_BitNot (w : Z) (a : reg) : reg := Z.ldiff (mm256_set1 w (-1)) a.   (* 82-90: andnot *)
Definition avx_Add (w : Z) : reg -> reg -> reg := halves2 (mm_add w).    (* 92-100 *)
Definition avx_Mul (w : Z) : reg -> reg -> reg := halves2 (mm_mullo w).  (* 102-110 *)
Definition avx_Sub (w : Z) : reg -> reg -> reg := halves2 (mm_sub w).    (* 112-120 *)
Definition avx_Neg (w : Z) (a : reg) : reg := halves2 (mm_sign w) a (mm256_set1 w (-1)).           (* 122-130 *)
Definition avx_ShiftLeft (w : Z) (a : reg) (n : Z) : reg := halves1 (fun x => mm_slli w x n) a.    (* 132-140 *)
Definition avx_ShiftRight (w : Z) (a : reg) (n : Z) : reg := halves1 (fun x => mm_srai w x n) a.   (* 142-150 *)
(* 152-158 for 32 bits, 160-168 for 16 bits *)
Definition avx_SelectUsingMask (w : Z) (if_mask then_val else_val : reg) : reg :=
  if w =? 16 then Z.lor (Z.land if_mask then_val) (Z.ldiff else_val if_mask)
  else mm256_blendv_ps else_val then_val if_mask.
(* 170-250 *)
Definition avx_MaskIfEqual (w : Z) : reg -> reg -> reg := halves2 (mm_cmpeq w).
Definition avx_MaskIfNotEqual (w : Z) (a b : reg) : reg := avx_BitNot w (avx_MaskIfEqual w a b).
Definition avx_MaskIfZero (w : Z) (a : reg) : reg := avx_MaskIfEqual w a (mm256_set1 w 0).
Definition avx_MaskIfNonZero (w : Z) (a : reg) : reg := avx_MaskIfNotEqual w a (mm256_set1 w 0).
Definition avx_MaskIfGreaterThan (w : Z) : reg -> reg -> reg := halves2 (mm_cmpgt w).
Definition avx_MaskIfLessThan (w : Z) (a b : reg) : reg := halves2 (mm_cmpgt w) b a.
Definition avx_MaskIfGreaterThanOrEqual (w : Z) (a b : reg) : reg := avx_BitNot w (avx_MaskIfLessThan w a b).
Definition avx_MaskIfLessThanOrEqual (w : Z) (a b : reg) : reg := avx_BitNot w (avx_MaskIfGreaterThan w a b).
(* 252-276: an int made a bool.  BitNot of an int is the one of fixedpoint.h 87-90 *)
Definition int_to_bool (x : Z) : bool := negb (x =? 0).
Definition avx_All (a : reg) : bool := int_to_bool (mm256_testc a a).
Definition avx_Any (a : reg) : bool := int_to_bool (BitNot (mm256_testz a a)).
(* 278-303 *)
Definition avx_RoundingHalfSum32 (a b : reg) : reg :=
  let one := mm256_set1 32 1 in
  let sign_bit_mask := mm256_set1 32 2147483648 in
  let sum := avx_Add 32 a b in
  let rounded_half_sum := avx_ShiftRight 32 (avx_Add 32 sum one) 1 in
  let overflow := avx_BitAnd (avx_BitAnd (avx_BitXor a rounded_half_sum) (avx_BitXor b rounded_half_sum)) sign_bit_mask in
  avx_BitXor rounded_half_sum overflow.
(* 305-314 *)
Definition avx_RoundingHalfSum16 (a b : reg) : reg :=
  let constant_neg_32768 := mm256_set1 16 (-32768) in
  let a_unsigned := avx_Sub 16 a constant_neg_32768 in
  let b_unsigned := avx_Sub 16 b constant_neg_32768 in
  avx_Add 16 (halves2 mm_avg_epu16 a_unsigned b_unsigned) constant_neg_32768.
(* 316-352 *)
Definition avx_SaturatingRoundingDoublingHighMul32 (a b : reg) : reg :=
  let min := mm256_set1 32 (-2147483648) in
  let saturation_mask := avx_BitAnd (avx_MaskIfEqual 32 a b) (avx_MaskIfEqual 32 a min) in
  let a1_a3 := halves1 (fun x => mm_srli_si128 x 4) a in
  let b1_b3 := halves1 (fun x => mm_srli_si128 x 4) b in
  let a0b0_a2b2 := halves2 mm_mul_epi32 a b in
  let a1b1_a3b3 := halves2 mm_mul_epi32 a1_a3 b1_b3 in
  let nudge := mm256_set1 64 1073741824 in
  let a0b0_a2b2_rounded := halves2 (mm_add 64) a0b0_a2b2 nudge in
  let a1b1_a3b3_rounded := halves2 (mm_add 64) a1b1_a3b3 nudge in
  let a0b0_a2b2_rounded_2x := halves1 (fun x => mm_slli 64 x 1) a0b0_a2b2_rounded in
  let a1b1_a3b3_rounded_2x := halves1 (fun x => mm_slli 64 x 1) a1b1_a3b3_rounded in
  let result := halves2 (fun x y => mm_blend_epi16 x y 204)
    (halves1 (fun x => mm_srli_si128 x 4) a0b0_a2b2_rounded_2x) a1b1_a3b3_rounded_2x in
  avx_SelectUsingMask 32 saturation_mask min result.
(* 354-364 *)
Definition avx_SaturatingRoundingDoublingHighMul16 (a b : reg) : reg :=
  let result_unsaturated := halves2 mm_mulhrs_epi16 a b in
  let saturation_mask := halves2 (mm_cmpeq 16) result_unsaturated (mm256_set1 16 32768) in
  Z.lxor result_unsaturated saturation_mask.
Definition avx_SaturatingAdd16 : reg -> reg -> reg := halves2 (mm_adds 16).   (* 376-380 *)

(* ------------------------------------------------------------------ *)
(* WebAssembly: shift counts are taken modulo the lane width *)
Definition wasm_not (a : reg) : reg := Z.ldiff (2 ^ 128 - 1) a.
Definition wasm_bitselect (a b mask : reg) : reg := Z.lor (Z.land a mask) (Z.ldiff b mask).
Definition wasm_shl (w : Z) (a : reg) (n : Z) : reg := map1 w (fun x => Z.shiftl x (n mod w)) a.
Definition wasm_shr (w : Z) (a : reg) (n : Z) : reg := map1 w (fun x => Z.shiftr x (n mod w)) a.
Fixpoint all_lanes (w : Z) (f : Z -> bool) (a : reg) (n : nat) : bool :=
  match n with O => true | S k => all_lanes w f a k && f (get w (Z.of_nat k) a) end.
Definition wasm_all_true (w : Z) (a : reg) : bool := all_lanes w (fun x => negb (x =? 0)) a (Z.to_nat (lanes w)).
Definition wasm_any_true (w : Z) (a : reg) : bool := negb (all_lanes w (fun x => x =? 0) a (Z.to_nat (lanes w))).
Definition pick4 (i a b c d : Z) : Z := if i =? 0 then a else if i =? 1 then b else if i =? 2 then c else d.
(* lanes 0-3 are those of a, 4-7 those of b *)
Definition wasm_v32x4_shuffle (a b : reg) (c0 c1 c2 c3 : Z) : reg :=
  pack 32 (fun i => let c := pick4 i c0 c1 c2 c3 in if c <? 4 then get 32 c a else get 32 (c - 4) b).
Definition wasm_widen_low (a : reg) : reg := pack 32 (fun i => get 16 i a).
Definition wasm_widen_high (a : reg) : reg := pack 32 (fun i => get 16 (4 + i) a).
Definition wasm_narrow (a b : reg) : reg := pack 16 (fun i => saturate 16 (if i <? 4 then get 32 i a else get 32 (i - 4) b)).

(* fixedpoint_wasmsimd.h; w = 32 for v128_t, w = 16 for int16x8_v128_t *)
Definition wasm_Dup (w x : Z) : reg := pack w (fun _ => x).                (* 363-371 *)
Definition wasm_BitAnd (a b : reg) : reg := Z.land a b.                    (* 57-65 *)
Definition wasm_BitOr (a b : reg) : reg := Z.lor a b.                      (* 67-75 *)
Definition wasm_BitXor (a b : reg) : reg := Z.lxor a b.                    (* 77-85 *)
Definition wasm_BitNot (a : reg) : reg := wasm_not a.                      (* 87-95 *)
Definition wasm_Add (w : Z) : reg -> reg -> reg := map2 w Z.add.           (* 97-105 *)
Definition wasm_Mul (w : Z) : reg -> reg -> reg := map2 w Z.mul.           (* 107-115 *)
Definition wasm_Sub (w : Z) : reg -> reg -> reg := map2 w Z.sub.           (* 117-125 *)
Definition wasm_Neg (w : Z) : reg -> reg := map1 w Z.opp.                  (* 127-135 *)
Definition wasm_ShiftLeft : Z -> reg -> Z -> reg := wasm_shl.              (* 137-145 *)
Definition wasm_ShiftRight : Z -> reg -> Z -> reg := wasm_shr.             (* 147-155 *)
Definition wasm_SelectUsingMask (m t e : reg) : reg := wasm_bitselect t e m.   (* 157-169 *)
(* 171-253 *)
Definition wasm_MaskIfEqual (w : Z) : reg -> reg -> reg := map2 w (fun a b => ones (a =? b)).
Definition wasm_MaskIfNotEqual (w : Z) : reg -> reg -> reg := map2 w (fun a b => ones (negb (a =? b))).
Definition wasm_MaskIfZero (w : Z) (a : reg) : reg := wasm_MaskIfEqual w a (wasm_Dup w 0).
Definition wasm_MaskIfNonZero (w : Z) (a : reg) : reg := wasm_MaskIfNotEqual w a (wasm_Dup w 0).
Definition wasm_MaskIfGreaterThan (w : Z) : reg -> reg -> reg := map2 w (fun a b => ones (a >? b)).
Definition wasm_MaskIfLessThan (w : Z) : reg -> reg -> reg := map2 w (fun a b => ones (a <? b)).
Definition wasm_MaskIfGreaterThanOrEqual (w : Z) : reg -> reg -> reg := map2 w (fun a b => ones (a >=? b)).
Definition wasm_MaskIfLessThanOrEqual (w : Z) : reg -> reg -> reg := map2 w (fun a b => ones (a <=? b)).
(* 255-279 *)
Definition wasm_All : Z -> reg -> bool := wasm_all_true.
Definition wasm_Any : Z -> reg -> bool := wasm_any_true.
(* 281-294 *)
Definition wasm_RoundingHalfSum32 (a b : reg) : reg :=
  let one := wasm_Dup 32 1 in
  let sign_bit_mask := wasm_Dup 32 2147483648 in
  let sum := wasm_Add 32 a b in
  let rounded_half_sum := wasm_ShiftRight 32 (wasm_Add 32 sum one) 1 in
  let overflow := wasm_BitAnd (wasm_BitAnd (wasm_BitXor a rounded_half_sum) (wasm_BitXor b rounded_half_sum)) sign_bit_mask in
  wasm_BitXor rounded_half_sum overflow.
(* 296-307 *)
Definition wasm_RoundingHalfSum16 (a b : reg) : reg :=
  let constant_neg_32768 := wasm_Dup 16 (-32768) in
  let a_unsigned := Z.lxor a constant_neg_32768 in
  let b_unsigned := Z.lxor b constant_neg_32768 in
  let avg_unsigned := pack 16 (fun i => Z.shiftr (getU 16 i a_unsigned + getU 16 i b_unsigned + 1) 1) in
  Z.lxor avg_unsigned constant_neg_32768.
(* 309-340 *)
Definition wasm_SaturatingRoundingDoublingHighMul32 (a b : reg) : reg :=
  let a_sign := wasm_shr 32 a 31 in
  let b_sign := wasm_shr 32 b 31 in
  let a_ext_lo := wasm_v32x4_shuffle a a_sign 0 4 1 5 in
  let a_ext_hi := wasm_v32x4_shuffle a a_sign 2 6 3 7 in
  let b_ext_lo := wasm_v32x4_shuffle b b_sign 0 4 1 5 in
  let b_ext_hi := wasm_v32x4_shuffle b b_sign 2 6 3 7 in
  let ab_lo := wasm_Mul 64 a_ext_lo b_ext_lo in
  let ab_hi := wasm_Mul 64 a_ext_hi b_ext_hi in
  let nudge_2x := wasm_Dup 64 2147483648 in
  let ab_lo_2x := wasm_Add 64 ab_lo ab_lo in
  let ab_hi_2x := wasm_Add 64 ab_hi ab_hi in
  let ab_lo_rounded_2x := wasm_Add 64 ab_lo_2x nudge_2x in
  let ab_hi_rounded_2x := wasm_Add 64 ab_hi_2x nudge_2x in
  let prod := wasm_v32x4_shuffle ab_lo_rounded_2x ab_hi_rounded_2x 1 3 5 7 in
  let min := wasm_Dup 32 2147483648 in
  Z.lxor prod (wasm_MaskIfEqual 32 prod min).
(* 342-361, the branch that is compiled *)
Definition wasm_SaturatingRoundingDoublingHighMul16 (a b : reg) : reg :=
  let lo := wasm_Mul 32 (wasm_widen_low a) (wasm_widen_low b) in
  let hi := wasm_Mul 32 (wasm_widen_high a) (wasm_widen_high b) in
  let inc := wasm_Dup 32 16384 in
  let lo := wasm_Add 32 lo inc in
  let hi := wasm_Add 32 hi inc in
  let lo := wasm_shr 32 lo 15 in
  let hi := wasm_shr 32 hi 15 in
  wasm_narrow lo hi.
Definition wasm_SaturatingAdd16 : reg -> reg -> reg := map2 16 (fun a b => saturate 16 (a + b)).   (* 373-377 *)

(* ------------------------------------------------------------------ *)
(* MSA: shift counts are taken modulo the lane width *)
Definition msa_nor (a b : reg) : reg := Z.ldiff (2 ^ 128 - 1) (Z.lor a b).
Definition msa_fill (w x : Z) : reg := pack w (fun _ => x).
Definition msa_sll (w : Z) : reg -> reg -> reg := map2 w (fun x n => Z.shiftl x (n mod w)).
Definition msa_sra (w : Z) : reg -> reg -> reg := map2 w (fun x n => Z.shiftr x (n mod w)).
Definition msa_srar (w : Z) : reg -> reg -> reg :=
  map2 w (fun x n => let s := n mod w in if s =? 0 then x else Z.shiftr (x + 2 ^ (s - 1)) s).
Definition msa_srari (w : Z) (a : reg) (n : Z) : reg := map1 w (fun x => if n =? 0 then x else Z.shiftr (x + 2 ^ (n - 1)) n) a.
Definition msa_srli (w : Z) (a : reg) (n : Z) : reg := pack w (fun i => Z.shiftr (getU w i a) n).
Definition msa_slli (w : Z) (a : reg) (n : Z) : reg := map1 w (fun x => Z.shiftl x n) a.
(* bits of ws where wd is 0, of wt where it is 1 *)
Definition msa_bsel (wd ws wt : reg) : reg := Z.lor (Z.ldiff ws wd) (Z.land wt wd).
Definition msa_ceq (w : Z) : reg -> reg -> reg := map2 w (fun a b => ones (a =? b)).
Definition msa_clt (w : Z) : reg -> reg -> reg := map2 w (fun a b => ones (a <? b)).
Definition msa_cle (w : Z) : reg -> reg -> reg := map2 w (fun a b => ones (a <=? b)).
Definition msa_bz (a : reg) : bool := a =? 0.
Definition msa_bnz (a : reg) : bool := negb (a =? 0).
Definition msa_aver (w : Z) : reg -> reg -> reg := map2 w (fun a b => Z.shiftr (a + b + 1) 1).
Definition msa_mulr_q (w : Z) : reg -> reg -> reg :=
  map2 w (fun a b => if (a =? int_min w) && (b =? int_min w) then int_max w else Z.shiftr (a * b + 2 ^ (w - 2)) (w - 1)).
Definition msa_adds (w : Z) : reg -> reg -> reg := map2 w (fun a b => saturate w (a + b)).
Definition msa_subs (w : Z) : reg -> reg -> reg := map2 w (fun a b => saturate w (a - b)).
Definition msa_min (w : Z) : reg -> reg -> reg := map2 w Z.min.
(* saturation to m+1 bits *)
Definition msa_sat (w : Z) (a : reg) (m : Z) : reg := map1 w (saturate (m + 1)) a.

(* fixedpoint_msa.h; w = 32 for v4i32, w = 16 for v8i16 *)
Definition msa_Dup : Z -> Z -> reg := msa_fill.                            (* 395-403 *)
Definition msa_BitAnd (a b : reg) : reg := Z.land a b.                     (* 37-47 *)
Definition msa_BitOr (a b : reg) : reg := Z.lor a b.                       (* 49-59 *)
Definition msa_BitXor (a b : reg) : reg := Z.lxor a b.                     (* 61-71 *)
Definition msa_BitNot (a : reg) : reg := msa_nor a a.                      (* 73-83 *)
Definition msa_Add (w : Z) : reg -> reg -> reg := map2 w Z.add.            (* 85-93 *)
Definition msa_Sub (w : Z) : reg -> reg -> reg := map2 w Z.sub.            (* 95-103 *)
Definition msa_Neg (w : Z) (a : reg) : reg := msa_Sub w (msa_fill w 0) a.  (* 105-115 *)
Definition msa_ShiftLeft (w : Z) (a : reg) (offset : Z) : reg := msa_sll w a (msa_fill w offset).    (* 117-125 *)
Definition msa_ShiftRight (w : Z) (a : reg) (offset : Z) : reg := msa_sra w a (msa_fill w offset).   (* 127-135 *)
Definition msa_SelectUsingMask (m t e : reg) : reg := msa_bsel m e t.      (* 137-151 *)
(* 153-231 *)
Definition msa_MaskIfEqual (w : Z) : reg -> reg -> reg := msa_ceq w.
Definition msa_MaskIfNotEqual (w : Z) (a b : reg) : reg := msa_BitNot (msa_MaskIfEqual w a b).
Definition msa_MaskIfZero (w : Z) : reg -> reg := map1 w (fun a => ones (a =? 0)).
Definition msa_MaskIfNonZero (w : Z) (a : reg) : reg := msa_BitNot (msa_MaskIfZero w a).
Definition msa_MaskIfGreaterThan (w : Z) (a b : reg) : reg := msa_clt w b a.
Definition msa_MaskIfGreaterThanOrEqual (w : Z) (a b : reg) : reg := msa_cle w b a.
Definition msa_MaskIfLessThan (w : Z) (a b : reg) : reg := msa_clt w a b.
Definition msa_MaskIfLessThanOrEqual (w : Z) (a b : reg) : reg := msa_cle w a b.
(* 233-251 *)
Definition msa_All (a : reg) : bool := msa_bz (msa_BitNot a).
Definition msa_Any (a : reg) : bool := msa_bnz a.
Definition msa_RoundingHalfSum (w : Z) : reg -> reg -> reg := msa_aver w.                       (* 253-261 *)
Definition msa_SaturatingRoundingDoublingHighMul (w : Z) : reg -> reg -> reg := msa_mulr_q w.   (* 263-271 *)
(* 276-283 and 304-311 *)
Fixpoint msa_double (w : Z) (n : nat) (x : reg) : reg := match n with O => x | S k => msa_double w k (msa_adds w x x) end.
(* 273-357, the exponent 0 in fixedpoint.h 392-395 *)
Definition msa_SaturatingRoundingMultiplyByPOT (w exponent : Z) (x : reg) : reg :=
  if exponent =? 0 then x
  else if exponent >? 0 then
    if exponent <? 5 then msa_double w (Z.to_nat exponent) x
    else
      let res := msa_sat w x (w - 1 - exponent) in
      let tmp := msa_srli w (msa_clt w res x) 1 in
      let res := msa_slli w res exponent in
      Z.lor res tmp
  else
    let sign := msa_srli w x (w - 1) in
    let x := msa_subs w x sign in
    msa_srari w x (- exponent).
(* 361-393 *)
Definition msa_RoundingDivideByPOT (w : Z) (x : reg) (exponent : Z) : reg :=
  let e := msa_fill w exponent in
  let sign := msa_srli w x (w - 1) in
  let sign := msa_min w sign e in
  let x := msa_subs w x sign in
  msa_srar w x e.
Definition msa_SaturatingAdd16 : reg -> reg -> reg := msa_adds 16.   (* 405-409 *)

(* ------------------------------------------------------------------ *)
(* fixedpoint.h 367-379 and 392-424 with the operations of a register type *)
Record pot_ops := mk_pot_ops {
  q_dup : Z -> reg; q_and : reg -> reg -> reg; q_add : reg -> reg -> reg; q_shl : reg -> Z -> reg; q_shr : reg -> Z -> reg;
  q_lt : reg -> reg -> reg; q_gt : reg -> reg -> reg; q_select : reg -> reg -> reg -> reg }.
Definition q_RoundingDivideByPOT (q : pot_ops) (x : reg) (exponent : Z) : option reg :=
  check (0 <=? exponent); check (exponent <=? 31);
  let mask := q_dup q (2 ^ exponent - 1) in
  let zero := q_dup q 0 in
  let one := q_dup q 1 in
  let remainder := q_and q x mask in
  let threshold := q_add q (q_shr q mask 1) (q_and q (q_lt q x zero) one) in
  Some (q_add q (q_shr q x exponent) (q_and q (q_gt q remainder threshold) one)).
Definition q_SaturatingRoundingMultiplyByPOT (q : pot_ops) (w exponent : Z) (x : reg) : option reg :=
  if exponent =? 0 then Some x
  else if exponent >? 0 then
    let* p := one_shl_int Trap (w - 1 - exponent) in
    let threshold := p - 1 in
    let positive_mask := q_gt q x (q_dup q threshold) in
    let negative_mask := q_lt q x (q_dup q (- threshold)) in
    let result := q_shl q x exponent in
    let result := q_select q positive_mask (q_dup q (int_max w)) result in
    Some (q_select q negative_mask (q_dup q (int_min w)) result)
  else q_RoundingDivideByPOT q x (- exponent).
Definition avx_pot (w : Z) : pot_ops :=
  mk_pot_ops (avx_Dup w) avx_BitAnd (avx_Add w) (avx_ShiftLeft w) (avx_ShiftRight w) (avx_MaskIfLessThan w) (avx_MaskIfGreaterThan w) (avx_SelectUsingMask w).
Definition wasm_pot (w : Z) : pot_ops :=
  mk_pot_ops (wasm_Dup w) wasm_BitAnd (wasm_Add w) (wasm_ShiftLeft w) (wasm_ShiftRight w) (wasm_MaskIfLessThan w) (wasm_MaskIfGreaterThan w) wasm_SelectUsingMask.

(* ------------------------------------------------------------------ *)
(* the three targets side by side; the record holds what all of them have *)
Inductive target := Avx | Wasm | Msa.
Record simd_ops := mk_simd_ops {
  s_dup : Z -> reg; s_and : reg -> reg -> reg; s_or : reg -> reg -> reg; s_xor : reg -> reg -> reg; s_not : reg -> reg;
  s_add : reg -> reg -> reg; s_sub : reg -> reg -> reg; s_neg : reg -> reg; s_shl : reg -> Z -> reg; s_shr : reg -> Z -> reg;
  s_select : reg -> reg -> reg -> reg; s_eq : reg -> reg -> reg; s_ne : reg -> reg -> reg; s_zero : reg -> reg; s_nonzero : reg -> reg;
  s_gt : reg -> reg -> reg; s_ge : reg -> reg -> reg; s_lt : reg -> reg -> reg; s_le : reg -> reg -> reg;
  s_all : reg -> bool; s_any : reg -> bool; s_halfsum : reg -> reg -> reg; s_mul : reg -> reg -> reg; s_addsat16 : reg -> reg -> reg;
  s_divide : reg -> Z -> option reg; s_pot : Z -> reg -> option reg }.
Definition simd (t : target) (w : Z) : simd_ops :=
  match t with
  | Avx => mk_simd_ops (avx_Dup w) avx_BitAnd avx_BitOr avx_BitXor (avx_BitNot w) (avx_Add w) (avx_Sub w) (avx_Neg w) (avx_ShiftLeft w) (avx_ShiftRight w)
      (avx_SelectUsingMask w) (avx_MaskIfEqual w) (avx_MaskIfNotEqual w) (avx_MaskIfZero w) (avx_MaskIfNonZero w)
      (avx_MaskIfGreaterThan w) (avx_MaskIfGreaterThanOrEqual w) (avx_MaskIfLessThan w) (avx_MaskIfLessThanOrEqual w) avx_All avx_Any
      (if w =? 16 then avx_RoundingHalfSum16 else avx_RoundingHalfSum32)
      (if w =? 16 then avx_SaturatingRoundingDoublingHighMul16 else avx_SaturatingRoundingDoublingHighMul32) avx_SaturatingAdd16
      (q_RoundingDivideByPOT (avx_pot w)) (q_SaturatingRoundingMultiplyByPOT (avx_pot w) w)
  | Wasm => mk_simd_ops (wasm_Dup w) wasm_BitAnd wasm_BitOr wasm_BitXor wasm_BitNot (wasm_Add w) (wasm_Sub w) (wasm_Neg w) (wasm_ShiftLeft w) (wasm_ShiftRight w)
      wasm_SelectUsingMask (wasm_MaskIfEqual w) (wasm_MaskIfNotEqual w) (wasm_MaskIfZero w) (wasm_MaskIfNonZero w)
      (wasm_MaskIfGreaterThan w) (wasm_MaskIfGreaterThanOrEqual w) (wasm_MaskIfLessThan w) (wasm_MaskIfLessThanOrEqual w) (wasm_All w) (wasm_Any w)
      (if w =? 16 then wasm_RoundingHalfSum16 else wasm_RoundingHalfSum32)
      (if w =? 16 then wasm_SaturatingRoundingDoublingHighMul16 else wasm_SaturatingRoundingDoublingHighMul32) wasm_SaturatingAdd16
      (q_RoundingDivideByPOT (wasm_pot w)) (q_SaturatingRoundingMultiplyByPOT (wasm_pot w) w)
  | Msa => mk_simd_ops (msa_Dup w) msa_BitAnd msa_BitOr msa_BitXor msa_BitNot (msa_Add w) (msa_Sub w) (msa_Neg w) (msa_ShiftLeft w) (msa_ShiftRight w)
      msa_SelectUsingMask (msa_MaskIfEqual w) (msa_MaskIfNotEqual w) (msa_MaskIfZero w) (msa_MaskIfNonZero w)
      (msa_MaskIfGreaterThan w) (msa_MaskIfGreaterThanOrEqual w) (msa_MaskIfLessThan w) (msa_MaskIfLessThanOrEqual w) msa_All msa_Any
      (msa_RoundingHalfSum w) (msa_SaturatingRoundingDoublingHighMul w) msa_SaturatingAdd16
      (fun x e => Some (msa_RoundingDivideByPOT w x e)) (fun e x => Some (msa_SaturatingRoundingMultiplyByPOT w e x))
  end.
(* AddSaturatingIf16Bit (fixedpoint.h 282-300) and the operations the functions use *)
Definition vops_of (w : Z) (s : simd_ops) : vops :=
  mk_vops (s_dup s) (s_and s) (s_add s) (s_sub s) (s_neg s) (s_select s) (s_nonzero s) (s_zero s) (s_gt s) (s_lt s) (s_halfsum s)
    (if w =? 16 then s_addsat16 s else s_add s) (s_mul s) (s_pot s).
