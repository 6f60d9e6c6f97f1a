(* PackModel.v: model of internal/pack.h (generic packing path) and of the
   map types of public/map.h it uses.
   Simplifications: pointers are integer indices into separate memories (one
   per buffer); Prefetch calls (pack.h 349-363) have no effect and are left
   out; the specialised PackingRegisterBlock paths (pack_sse.h, pack_neon.h,
   pack_avx.h) are in PackSimdModel.v, and pack_msa.h is not modelled.  An
   input memory holds the values of the entries, 0..255 for uint8 matrices and
   -128..127 for int8 matrices; the packed memory holds bytes 0..255. *)
From Verif Require Import Base CommonModel.

(* map.h 27 *)
Inductive map_order := ColMajor | RowMajor.
(* map.h 31-77: MatrixMap, base = address of entry (0,0) *)
Record matrix_map := mk_map { mm_base : Z; mm_rows : Z; mm_cols : Z; mm_stride : Z; mm_order : map_order }.
Definition mm_rows_stride (m : matrix_map) : Z := match mm_order m with ColMajor => 1 | RowMajor => mm_stride m end.
Definition mm_cols_stride (m : matrix_map) : Z := match mm_order m with RowMajor => 1 | ColMajor => mm_stride m end.
Definition mm_addr (m : matrix_map) (r c : Z) : Z :=
  mm_base m + r * mm_rows_stride m + c * mm_cols_stride m.
(* map.h 67-76, with its asserts *)
Definition mm_block (m : matrix_map) (r c nr nc : Z) : option matrix_map :=
  check (0 <=? r); check (r + nr <=? mm_rows m); check (0 <=? c); check (c + nc <=? mm_cols m);
  Some (mk_map (mm_addr m r c) nr nc (mm_stride m) (mm_order m)).

(* pack.h 137-189: SideMap.  sm_mem is the memory the pointer points into. *)
Inductive side_map_order := SWidthMajor | SDepthMajor.
Record side_map := mk_smap { sm_mem : mem; sm_base : Z; sm_width : Z; sm_depth : Z;
                             sm_stride : Z; sm_order : side_map_order }.
Definition sm_width_stride (s : side_map) : Z := match sm_order s with SDepthMajor => 1 | SWidthMajor => sm_stride s end.
Definition sm_depth_stride (s : side_map) : Z := match sm_order s with SWidthMajor => 1 | SDepthMajor => sm_stride s end.
Definition sm_addr (s : side_map) (w d : Z) : Z :=
  sm_base s + w * sm_width_stride s + d * sm_depth_stride s.
Definition sm_get (s : side_map) (w d : Z) : option Z := rd (sm_mem s) (sm_addr s w d).
(* pack.h 175-184 *)
Definition sm_block (s : side_map) (w d bw bd : Z) : option side_map :=
  check (0 <=? w); check (w + bw <=? sm_width s); check (0 <=? d); check (d + bd <=? sm_depth s);
  Some (mk_smap (sm_mem s) (sm_addr s w d) bw bd (sm_stride s) (sm_order s)).

(* pack.h 46-128: PackedSideBlock: the packed bytes, the sums of each slice
   and the current position.  pk_behind: what the bytes of the storage that are
   only there for the alignment of these two blocks happen to contain. *)
Record packed := mk_packed { pk_data : mem; pk_sums : mem; pk_pos : Z; pk_behind : Z -> Z }.
(* What a kernel can read through the pointer to the packed bytes.  The
   constructor reserves the packed bytes and then the sums (pack.h 55-58), and the
   allocator puts blocks one behind the other in one storage, each rounded up to
   64 bytes (allocator.h 89, 138-149, 165-167; common.h 39): behind the
   packed bytes and their rounding are the sums, in the little-endian order of all
   the targets with such code, and their rounding.  Blocks further on are left out. *)
Definition block_view (p : side_params) (b : packed) : mem := fun a =>
  let n := sp_l2_width p * sp_l2_depth p in
  let next := RoundUp 64 n in
  if a <? n then pk_data b a
  else if a <? next then Some (pk_behind b a mod 256)
  else if a <? next + RoundUp 64 (4 * sp_l2_width p) then
    match pk_sums b ((a - next) / 4) with
    | Some v => Some (v / 2 ^ (8 * ((a - next) mod 4)) mod 256)
    | None => Some (pk_behind b a mod 256)
    end
  else None.

(* pack.h 63-67 *)
Definition run_pos (p : side_params) (start_width start_depth : Z) : Z :=
  let kernel_run_depth := Z.min (sp_l1_depth p) (sp_l2_depth p - start_depth) in
  sp_l2_width p * start_depth + start_width * kernel_run_depth.
Definition seek_run (p : side_params) (start_width start_depth : Z) (b : packed) : packed :=
  mk_packed (pk_data b) (pk_sums b) (run_pos p start_width start_depth) (pk_behind b).
(* pack.h 71-73 *)
Definition seek_forward_n_cells (f : side_fmt) (n : Z) (b : packed) : packed :=
  mk_packed (pk_data b) (pk_sums b) (pk_pos b + n * sf_cellsize f) (pk_behind b).

(* memcpy of n bytes; and memset of n bytes *)
Definition memcpy (dst : mem) (da : Z) (src : mem) (sa n : Z) : option mem :=
  for_step 0 n 1 (fun i m => let* v := rd src (sa + i) in wr m (da + i) v) dst.
Definition memset (dst : mem) (da v n : Z) : option mem :=
  for_step 0 n 1 (fun i m => wr m (da + i) v) dst.

(* pack.h 235: local array of n bytes, contents indeterminate (the theorems
   hold whatever [junk] is) *)
Definition local_buf (n : Z) (junk : Z -> Z) : mem :=
  fun a => if (0 <=? a) && (a <? n) then Some (junk a) else None.

(* pack.h 242-258: MakeCompleteSrc *)
Definition MakeCompleteSrc (f : side_fmt) (kreg : Z) (junk : Z -> Z) (src : side_map) : option side_map :=
  let kw := sf_width f in
  let* buf := memset (local_buf (kw * kreg) junk) 0 (sf_zp f) (kw * kreg) in
  let* buf :=
    match sm_order src with
    | SWidthMajor =>
        for_step 0 (sm_width src) 1 (fun w m =>
          memcpy m (w * kreg) (sm_mem src) (sm_addr src w 0) (sm_depth src)) buf
    | SDepthMajor =>
        for_step 0 (sm_depth src) 1 (fun d m =>
          memcpy m (d * kw) (sm_mem src) (sm_addr src 0 d) (sm_width src)) buf
    end in
  Some (mk_smap buf 0 kw kreg
          (match sm_order src with SWidthMajor => kreg | SDepthMajor => kw end) (sm_order src)).

(* pack.h 262-289: Pack one complete register block at the current position.
   Int32 sums follow the overflow mode m; kernel_val_unwrapped is an int16,
   which always holds src_val - zero point.  With int8 input this code does not
   compile, because src_cell_map (270) is a SideMap of uint8; the packers used
   with such formats (PackSimdModel.v) never call it. *)
Definition Pack (m : ovf) (f : side_fmt) (kreg : Z) (complete_src : side_map)
           (start_width : Z) (dst : packed) : option packed :=
  let kw := sf_width f in
  let zp := sf_zp f in
  let* st :=
    for_step 0 kreg (sf_cd f) (fun cell_start_depth st =>
      for_step 0 kw (sf_cw f) (fun cell_start_width st =>
        let '(dst_ptr, data, sums) := st in
        let* src_cell := sm_block complete_src cell_start_width cell_start_depth (sf_cw f) (sf_cd f) in
        let* ds :=
          for_step 0 (sf_cw f) 1 (fun w ds =>
            let '(data, sums) := ds in
            let* dsum :=
              for_step 0 (sf_cd f) 1 (fun d dsum =>
                let '(data, sum) := dsum in
                let* src_val := sm_get src_cell w d in
                let kernel_val_unwrapped := wrapS 16 (src_val - zp) in
                let kernel_val_uint8 := wrapU 8 kernel_val_unwrapped in
                let* o := OffsetIntoCell f w d in
                let* data := wr data (dst_ptr + o) kernel_val_uint8 in
                let* sum := norm m 32 (sum + kernel_val_unwrapped) in
                Some (data, sum)) (data, 0) in
            let '(data, sum) := dsum in
            let a := start_width + cell_start_width + w in
            let* old := rd sums a in
            let* new := norm m 32 (old + sum) in
            let* sums := wr sums a new in
            Some (data, sums)) (data, sums) in
        let '(data, sums) := ds in
        Some (dst_ptr + sf_cellsize f, data, sums)) st)
      (pk_pos dst, pk_data dst, pk_sums dst) in
  let '(_, data, sums) := st in
  Some (seek_forward_n_cells f (Z.quot (sf_cells f * kreg) (sf_cd f))
          (mk_packed data sums (pk_pos dst) (pk_behind dst))).

(* pack.h 292-294: the class PackingRegisterBlock<SrcMapType, PackedSideBlock>,
   of which only the method Pack differs between the generic code and the
   template specialisations.  A packer is the choice of that method for every
   format and source order; the generic one is Pack. *)
Definition packer := ovf -> side_fmt -> Z -> side_map -> Z -> packed -> option packed.

(* pack.h 366-392: PackRun *)
Definition PackRun (pk : packer) (m : ovf) (f : side_fmt) (kreg : Z) (junk : Z -> Z) (src : side_map)
           (start_width width start_depth depth : Z) (dst : packed) : option packed :=
  let kw := sf_width f in
  if width =? kw then
    let register_aligned_depth := RoundDown kreg depth in
    let* dst :=
      if negb (register_aligned_depth =? 0) then
        for_step 0 register_aligned_depth kreg (fun d dst =>
          let* s := sm_block src start_width (start_depth + d) width kreg in
          pk m f kreg s start_width dst) dst
      else Some dst in
    if register_aligned_depth <? depth then
      let* s := sm_block src start_width (start_depth + register_aligned_depth) width
                  (depth - register_aligned_depth) in
      let* c := MakeCompleteSrc f kreg junk s in
      pk m f kreg c start_width dst
    else Some dst
  else
    check (width <? kw);
    for_step 0 depth kreg (fun d dst =>
      let ds := Z.min kreg (depth - d) in
      let* s := sm_block src start_width (start_depth + d) width ds in
      let* c := MakeCompleteSrc f kreg junk s in
      pk m f kreg c start_width dst) dst.

(* pack.h 340-346 *)
Definition PackL1 (pk : packer) (m : ovf) (f : side_fmt) (kreg : Z) (junk : Z -> Z) (p : side_params) (src : side_map)
           (start_width width start_depth depth : Z) (dst : packed) : option packed :=
  for_step 0 width (sf_width f) (fun w dst =>
    let ws := Z.min (sf_width f) (width - w) in
    let dst := seek_run p (start_width + w) start_depth dst in
    PackRun pk m f kreg junk src (start_width + w) ws start_depth depth dst) dst.

(* pack.h 319-336 *)
Definition PackL2 (pk : packer) (m : ovf) (f : side_fmt) (kreg : Z) (junk : Z -> Z) (p : side_params) (src : side_map)
           (dst : packed) : option packed :=
  let* sums := memset (pk_sums dst) 0 0 (sp_l2_width p) in
  let dst := mk_packed (pk_data dst) sums (pk_pos dst) (pk_behind dst) in
  for_step 0 (sm_depth src) (sp_l1_depth p) (fun d dst =>
    let ds := Z.min (sp_l1_depth p) (sm_depth src - d) in
    for_step 0 (sm_width src) (sp_l1_width p) (fun w dst =>
      let ws := Z.min (sp_l1_width p) (sm_width src - w) in
      PackL1 pk m f kreg junk p src w ws d ds dst) dst) dst.

(* pack.h 403-415 and 418-430: mem is the memory of the input matrix *)
Definition lhs_side_map (input : mem) (src : matrix_map) : side_map :=
  mk_smap input (mm_base src) (mm_rows src) (mm_cols src) (mm_stride src)
    (match mm_order src with RowMajor => SWidthMajor | ColMajor => SDepthMajor end).
Definition rhs_side_map (input : mem) (src : matrix_map) : side_map :=
  mk_smap input (mm_base src) (mm_cols src) (mm_rows src) (mm_stride src)
    (match mm_order src with ColMajor => SWidthMajor | RowMajor => SDepthMajor end).
Definition PackLhs (pk : packer) (m : ovf) (f : side_fmt) (kreg : Z) (junk : Z -> Z) (p : side_params)
           (input : mem) (src : matrix_map) (dst : packed) : option packed :=
  PackL2 pk m f kreg junk p (lhs_side_map input src) dst.
Definition PackRhs (pk : packer) (m : ovf) (f : side_fmt) (kreg : Z) (junk : Z -> Z) (p : side_params)
           (input : mem) (src : matrix_map) (dst : packed) : option packed :=
  PackL2 pk m f kreg junk p (rhs_side_map input src) dst.
