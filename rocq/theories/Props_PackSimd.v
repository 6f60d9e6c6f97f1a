(* Props_PackSimd.v: property theorem C60, the vectorised packing code. *)
From Verif Require Import Base CommonModel PackModel PackSpec GemmSpec PackSimdModel PackMsaModel PackSimdProofs PackSimdProofs2
  PackMsaProofs PackSimdProofs3.

(* one register block: pack_sse.h, pack_avx.h, pack_neon.h and pack_msa.h meet the same
   specification as the generic code, for every kernel side format *)
Theorem C60_pack_sse : forall m f kreg, side_fmt_ok f -> 0 < kreg -> (8 | kreg) -> (sf_cd f | kreg) ->
  pack_correct m f kreg (sse_packer m f kreg).
Proof. exact sse_packer_correct. Qed.
Print Assumptions C60_pack_sse.

Theorem C60_pack_avx : forall m f kreg, side_fmt_ok f -> 0 < kreg -> (16 | kreg) -> (sf_cd f | kreg) ->
  pack_correct m f kreg (avx_packer m f kreg).
Proof. exact avx_packer_correct. Qed.
Print Assumptions C60_pack_avx.

Theorem C60_pack_neon : forall m f, side_fmt_ok f -> (sf_cd f | 16) -> pack_correct m f 16 (neon_packer m f 16).
Proof. exact neon_packer_correct. Qed.
Print Assumptions C60_pack_neon.

Theorem C60_pack_msa : forall m f, side_fmt_ok f -> (sf_cd f | 16) -> pack_correct m f 16 (msa_packer m f 16).
Proof. exact msa_packer_correct. Qed.
Print Assumptions C60_pack_msa.

(* 32 levels: the NEON code fills only 16 *)
Theorem C60_neon_needs_16_refuted :
  exists f, side_fmt_ok f /\ (sf_cd f | 32) /\ ~ pack_correct Wrap f 32 (neon_packer Wrap f 32).
Proof. exact neon_needs_16_refuted. Qed.
Print Assumptions C60_neon_needs_16_refuted.

(* and leave exactly the memories the generic code leaves *)
Theorem C60_same_as_generic : forall m f kreg pk src sw b g s,
  simd_packer kreg pk -> side_fmt_ok f -> (sf_cd f | kreg) -> sf_kind f <> FInt8Inputs ->
  sm_width src = sf_width f -> sm_depth src = kreg ->
  (forall w d, 0 <= w < sf_width f -> 0 <= d < kreg -> sm_get src w d = Some (g w d) /\ 0 <= g w d <= 255) ->
  (forall w d, 0 <= w < sf_width f -> 0 <= d < kreg -> exists v, pk_data b (pk_pos b + run_index f w d) = Some v) ->
  (forall w, 0 <= w < sf_width f -> pk_sums b (sw + w) = Some (s w) /\ - 2 ^ 31 <= s w <= 2 ^ 31 - 1) ->
  (m = Wrap \/ forall w, 0 <= w < sf_width f -> Z.abs (s w) + 255 * kreg <= 2 ^ 31 - 1) ->
  exists b1 b2, pk m f kreg src sw b = Some b1 /\ Pack m f kreg src sw b = Some b2 /\
    (forall a, pk_data b1 a = pk_data b2 a) /\ (forall a, pk_sums b1 a = pk_sums b2 a) /\ pk_pos b1 = pk_pos b2.
Proof. exact simd_as_generic. Qed.
Print Assumptions C60_same_as_generic.

(* a whole left operand: C17 with the vectorised code *)
Theorem C60_pack_lhs : forall k rows cols depth nt t bp pk,
  kernel_fmt_ok k -> simd_packer (kf_reg k) pk -> 0 < rows -> 0 < cols -> 0 < depth -> 0 < nt ->
  BlockParams_Init k rows cols depth nt t = Some bp ->
  exists loc : Z -> Z -> Z,
    (forall w d, 0 <= w < bp_l2_rows bp -> 0 <= d < bp_l2_depth bp ->
       0 <= loc w d < bp_l2_rows bp * bp_l2_depth bp) /\
    (forall w d w' d', 0 <= w < bp_l2_rows bp -> 0 <= d < bp_l2_depth bp ->
       0 <= w' < bp_l2_rows bp -> 0 <= d' < bp_l2_depth bp -> loc w d = loc w' d' -> w = w' /\ d = d') /\
    forall m junk input M L b,
      m = Wrap \/ 255 * bp_l2_depth bp <= 2 ^ 31 - 1 ->
      0 < mm_rows M <= bp_l2_rows bp -> mm_cols M = depth -> holds_lhs (kf_lhs k) input M L ->
      byte_buffer (pk_data b) (bp_l2_rows bp * bp_l2_depth bp) -> allocated (pk_sums b) (bp_l2_rows bp) ->
      exists b', PackLhs pk m (kf_lhs k) (kf_reg k) junk (GetSideBlockParams Lhs bp) input M b = Some b' /\
        (forall w d, 0 <= w < RoundUp (kRows k) (mm_rows M) -> 0 <= d < bp_l2_depth bp ->
           exists x, pk_data b' (loc w d) = Some x /\
             operand_value (sf_signed (kf_lhs k)) x =
             if (w <? mm_rows M) && (d <? depth) then L w d - sf_zp (kf_lhs k) else 0) /\
        (forall w, 0 <= w < bp_l2_rows bp ->
           pk_sums b' w = Some (if w <? mm_rows M
             then wrapS 32 (sumZ (fun d => L w d - sf_zp (kf_lhs k)) 0 depth) else 0)).
Proof. exact pack_lhs_simd. Qed.
Print Assumptions C60_pack_lhs.

Theorem C60_pack_rhs : forall k rows cols depth nt t bp pk,
  kernel_fmt_ok k -> simd_packer (kf_reg k) pk -> 0 < rows -> 0 < cols -> 0 < depth -> 0 < nt ->
  BlockParams_Init k rows cols depth nt t = Some bp ->
  exists loc : Z -> Z -> Z,
    (forall w d, 0 <= w < bp_l2_cols bp -> 0 <= d < bp_l2_depth bp ->
       0 <= loc w d < bp_l2_cols bp * bp_l2_depth bp) /\
    (forall w d w' d', 0 <= w < bp_l2_cols bp -> 0 <= d < bp_l2_depth bp ->
       0 <= w' < bp_l2_cols bp -> 0 <= d' < bp_l2_depth bp -> loc w d = loc w' d' -> w = w' /\ d = d') /\
    forall m junk input M R b,
      m = Wrap \/ 255 * bp_l2_depth bp <= 2 ^ 31 - 1 ->
      0 < mm_cols M <= bp_l2_cols bp -> mm_rows M = depth -> holds_rhs (kf_rhs k) input M R ->
      byte_buffer (pk_data b) (bp_l2_cols bp * bp_l2_depth bp) -> allocated (pk_sums b) (bp_l2_cols bp) ->
      exists b', PackRhs pk m (kf_rhs k) (kf_reg k) junk (GetSideBlockParams Rhs bp) input M b = Some b' /\
        (forall w d, 0 <= w < RoundUp (kCols k) (mm_cols M) -> 0 <= d < bp_l2_depth bp ->
           exists x, pk_data b' (loc w d) = Some x /\
             operand_value (sf_signed (kf_rhs k)) x =
             if (w <? mm_cols M) && (d <? depth) then R d w - sf_zp (kf_rhs k) else 0) /\
        (forall w, 0 <= w < bp_l2_cols bp ->
           pk_sums b' w = Some (if w <? mm_cols M
             then wrapS 32 (sumZ (fun d => R d w - sf_zp (kf_rhs k)) 0 depth) else 0)).
Proof. exact pack_rhs_simd. Qed.
Print Assumptions C60_pack_rhs.

(* a width-major block of 4 slices and 16 levels through the SSE code, the two
   unsigned NEON codes and the int8 NEON code, and one of 8 slices through the
   AVX2 code: the first packed bytes, the last one, and the sums *)
Definition px_src8 : side_map :=
  mk_smap (fun a => if (0 <=? a) && (a <? 8 * 40) then Some (a * 7 mod 256) else None) 0 8 32 40 SWidthMajor.
Definition px_block8 : packed :=
  mk_packed (fun a => if (0 <=? a) && (a <? 256) then Some 0 else None) (fun a => if (0 <=? a) && (a <? 10) then Some a else None) 0 (fun a => a).
Example C60_example :
  let wm := mk_side_fmt 4 2 CWidthMajor 1 FUint8 in
  let dm := mk_side_fmt 4 2 CDepthMajor 1 FUint8 in
  let i8 := mk_side_fmt 4 16 CWidthMajor 1 FInt8 in
  let a8 := mk_side_fmt 8 2 CWidthMajor 1 FUint8 in
  let show n r := match r with
    | Some b => Some (map (pk_data b) [0; 1; 2; 3; 8; n], map (pk_sums b) [0; 1; 2; 3], pk_pos b) | None => None end in
  sm_width (px_src 16) = sf_width wm /\ sm_depth (px_src 16) = 16 /\
  sse_packer Trap wm 16 (px_src 16) 0 (px_block 16) = sse_Pack4x2 wm 16 (px_src 16) 0 (px_block 16) /\
  show 63 (sse_packer Trap wm 16 (px_src 16) 0 (px_block 16))
    = Some (map Some [0; 7; 112; 119; 14; 185], map Some [840; 2633; 1610; 2123], 64) /\
  neon_packer Trap wm 16 (px_src 16) 0 (px_block 16) = neon_Pack4x2 2 width_major_sum wm 16 (px_src 16) 0 (px_block 16) /\
  show 63 (neon_packer Trap wm 16 (px_src 16) 0 (px_block 16))
    = Some (map Some [0; 7; 112; 119; 14; 185], map Some [840; 2633; 1610; 2123], 64) /\
  neon_packer Trap dm 16 (px_src 16) 0 (px_block 16) = neon_Pack4x2 1 depth_major_sum dm 16 (px_src 16) 0 (px_block 16) /\
  show 63 (neon_packer Trap dm 16 (px_src 16) 0 (px_block 16))
    = Some (map Some [0; 112; 224; 80; 14; 185], map Some [840; 2633; 1610; 2123], 64) /\
  neon_packer Trap i8 16 (px_src 16) 0 (px_block 16) = neon_PackInt8 i8 (px_src 16) 0 (px_block 16) /\
  show 63 (neon_packer Trap i8 16 (px_src 16) 0 (px_block 16))
    = Some (map Some [128; 135; 142; 149; 184; 57], map Some [-1208; 585; -438; 75], 64) /\
  avx_packer Trap a8 32 px_src8 2 px_block8 = avx_Pack8x2 a8 32 px_src8 2 px_block8 /\
  show 255 (avx_packer Trap a8 32 px_src8 2 px_block8)
    = Some (map Some [0; 7; 24; 31; 96; 129], map Some [0; 1; 3474; 4243], 256).
Proof. cbv zeta. repeat split; vm_compute; reflexivity. Qed.
(* the MSA code on one, two and three cells (its stores differ for odd and even
   numbers of them) and on int8 cells two slices wide: all packed bytes and sums,
   against those of the generic code *)
Definition px_src_n (n : Z) : side_map :=
  mk_smap (fun a => if (0 <=? a) && (a <? n * 20) then Some (a * 7 mod 256) else None) 0 n 16 20 SWidthMajor.
Definition px_block_n (n : Z) : packed :=
  mk_packed (fun a => if (0 <=? a) && (a <? 16 * n) then Some 0 else None) (fun a => if (0 <=? a) && (a <? n) then Some a else None) 0 (fun a => a).
Example C60_example_msa :
  let all r n := match r with
    | Some b => Some (map (pk_data b) (map Z.of_nat (seq 0 (16 * n))), map (pk_sums b) (map Z.of_nat (seq 0 n)), pk_pos b) | None => None end in
  let same f n := all (msa_packer Trap f 16 (px_src_n (Z.of_nat n)) 0 (px_block_n (Z.of_nat n))) n =
    all (Pack Trap f 16 (px_src_n (Z.of_nat n)) 0 (px_block_n (Z.of_nat n))) n in
  same (mk_side_fmt 4 2 CWidthMajor 1 FUint8) 4%nat /\ same (mk_side_fmt 4 2 CWidthMajor 2 FUint8) 8%nat /\
  same (mk_side_fmt 4 2 CWidthMajor 3 FUint8) 12%nat /\ same (mk_side_fmt 4 2 CDepthMajor 3 FUint8) 12%nat /\
  same (mk_side_fmt 4 16 CWidthMajor 1 FInt8) 4%nat /\ same (mk_side_fmt 2 16 CWidthMajor 1 FInt8) 2%nat /\
  option_map (fun x => firstn 10 (fst (fst x)))
    (all (msa_packer Trap (mk_side_fmt 4 2 CWidthMajor 3 FUint8) 16 (px_src_n 12) 0 (px_block_n 12)) 12%nat) =
    Some (map Some [0; 7; 140; 147; 24; 31; 164; 171; 48; 55]).
Proof. cbv zeta. do 6 (split; [vm_compute; reflexivity|]). vm_compute. reflexivity. Qed.
