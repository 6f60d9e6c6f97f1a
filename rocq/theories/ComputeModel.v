(* ComputeModel.v: model of internal/compute.h, of the reference kernel
   (internal/kernel_reference.h) and of the packed result (internal/unpack.h
   30-56).  The packed result is a memory of int32 cells. *)
From Verif Require Import Base CommonModel PackModel.

(* the three sets of 128-bit output code: simd_wrappers.h 661-667, output.h 571-577.
   The MSA code has three variants of its widest stores: assembly for revision 6
   processors, assembly for older ones, and C++ for clang and for big-endian
   byte order (output_msa.h 697-698, 712, 1073) *)
Inductive mips_asm := Rev6 | Rev2 | NoAsm.
Inductive simd := Sse | Neon | Mips (v : mips_asm).

(* kernel.h 213-227: KernelBase.  Arguments of Run in the order of the C++
   signature; the result memory is read and written at dst_ptr + ... *)
Record kernel := mk_kernel {
  k_fmt : kernel_fmt;
  k_run : mem -> Z -> Z -> Z -> mem -> Z -> mem -> Z -> Z -> Z -> option mem;
          (* result, dst_ptr, row stride, col stride, lhs, lhs_ptr, rhs, rhs_ptr,
             start_depth, run_depth *)
  k_pack : packer;
          (* the PackingRegisterBlock code the build provides; not part of the
             C++ kernel class, but chosen by the kernel's format and by the
             same target macros (pack.h 434-442) *)
  k_out : option simd
          (* likewise the register types of the output code; None is the
             scalar code, which AVX2 builds use too *)
}.

(* kernel_reference.h 48-113 *)
Definition ReferenceKernel_Run (m : ovf) (k : kernel_fmt) (result : mem)
    (dst_ptr dst_row_stride dst_col_stride : Z) (lhs : mem) (lhs_ptr : Z)
    (rhs : mem) (rhs_ptr start_depth run_depth : Z) : option mem :=
  let L := kf_lhs k in
  let R := kf_rhs k in
  let* accumulator := memset (local_buf (kRows k * kCols k) (fun _ => 0)) 0 0 (kRows k * kCols k) in
  let run_depth_cells := Z.quot run_depth (kDepth k) in
  let* accumulator :=
    for_step 0 run_depth_cells 1 (fun dc acc =>
      for_step 0 (sf_cells L) 1 (fun rc acc =>
        let lhs_cell_ptr := lhs_ptr + (dc * sf_cells L + rc) * sf_cw L * kDepth k in
        for_step 0 (sf_cells R) 1 (fun cc acc =>
          let rhs_cell_ptr := rhs_ptr + (dc * sf_cells R + cc) * sf_cw R * kDepth k in
          for_step 0 (kDepth k) 1 (fun di acc =>
            for_step 0 (sf_cw L) 1 (fun ri acc =>
              for_step 0 (sf_cw R) 1 (fun ci acc =>
                let* lo := OffsetIntoCell L ri di in
                let* ro := OffsetIntoCell R ci di in
                let* lv := rd lhs (lhs_cell_ptr + lo) in
                let* rv := rd rhs (rhs_cell_ptr + ro) in
                let a := (ri + rc * sf_cw L) + (ci + cc * sf_cw R) * kRows k in
                let* old := rd acc a in
                let* prod := norm m 32 (lv * rv) in
                let* new := norm m 32 (old + prod) in
                wr acc a new) acc) acc) acc) acc) acc) accumulator in
  for_step 0 (kRows k) 1 (fun r result =>
    for_step 0 (kCols k) 1 (fun c result =>
      let a := dst_ptr + (r * dst_row_stride + c * dst_col_stride) in
      let* v := rd accumulator (r + c * kRows k) in
      if start_depth =? 0 then wr result a v
      else
        let* old := rd result a in
        let* new := norm m 32 (old + v) in
        wr result a new) result) result.
Definition ReferenceKernel (m : ovf) (k : kernel_fmt) : kernel :=
  mk_kernel k (ReferenceKernel_Run m k) Pack None.

(* unpack.h 41-44: the packed result as a column-major map of its own memory *)
Definition packed_result_map (bp : block_params) : matrix_map :=
  mk_map 0 (bp_l2_rows bp) (bp_l2_cols bp) (bp_l2_rows bp) ColMajor.

(* compute.h 79-89; the kernel gets pointers into the storage of the allocator *)
Definition ComputeRun (K : kernel) (bp : block_params) (lhs rhs : packed)
           (start_row start_col start_depth depth : Z) (result : mem) : option mem :=
  let k := k_fmt K in
  let spL := GetSideBlockParams Lhs bp in
  let spR := GetSideBlockParams Rhs bp in
  let lhs := seek_run spL start_row start_depth lhs in
  let rhs := seek_run spR start_col start_depth rhs in
  let* blk := mm_block (packed_result_map bp) start_row start_col (kRows k) (kCols k) in
  k_run K result (mm_base blk) (mm_rows_stride blk) (mm_cols_stride blk)
    (block_view spL lhs) (pk_pos lhs) (block_view spR rhs) (pk_pos rhs) start_depth depth.

(* compute.h 91-102 *)
Definition ComputeL1 (K : kernel) (bp : block_params) (lhs rhs : packed)
           (start_row rows start_col cols start_depth depth : Z) (result : mem) : option mem :=
  let k := k_fmt K in
  check (rows mod kRows k =? 0);
  check (cols mod kCols k =? 0);
  check (depth mod kDepth k =? 0);
  for_step 0 cols (kCols k) (fun c result =>
    for_step 0 rows (kRows k) (fun r result =>
      ComputeRun K bp lhs rhs (start_row + r) (start_col + c) start_depth depth result) result) result.

(* compute.h 51-63 *)
Definition Compute (K : kernel) (bp : block_params) (lhs rhs : packed) (depth : Z) (result : mem)
  : option mem :=
  let depth := RoundUp (kDepth (k_fmt K)) depth in
  check (depth <=? bp_l2_depth bp);
  for_step 0 depth (bp_l1_depth bp) (fun d result =>
    let ds := Z.min (bp_l1_depth bp) (depth - d) in
    for_step 0 (bp_l2_rows bp) (bp_l1_rows bp) (fun r result =>
      let rs := Z.min (bp_l1_rows bp) (bp_l2_rows bp - r) in
      ComputeL1 K bp lhs rhs r rs 0 (bp_l2_cols bp) d ds result) result) result.
