(* PackSimdModel.v: model of the vectorised packing code: pack_sse.h 34-124,
   pack_neon.h 35-380 and pack_avx.h 34-278.
   A register is the list of its lanes, lowest first: bytes for the loads,
   stores and permutations, and 16- or 32-bit lanes (as numbers) for the
   arithmetic on them.  The intrinsics follow the Intel and Arm definitions.
   pack_msa.h is in PackMsaModel.v. *)
From Verif Require Import Base CommonModel PackModel.

(* ---- loads and stores of consecutive cells ---- *)
Fixpoint load (m : mem) (a : Z) (n : nat) : option (list Z) :=
  match n with
  | O => Some []
  | S n' => let* v := rd m a in let* l := load m (a + 1) n' in Some (v :: l)
  end.
Fixpoint store (m : mem) (a : Z) (l : list Z) : option mem :=
  match l with
  | [] => Some m
  | v :: l' => let* m' := wr m a v in store m' (a + 1) l'
  end.

(* ---- lanes ---- *)
(* group i of k bytes *)
Definition grp (k i : nat) (l : list Z) : list Z := firstn k (skipn (k * i) l).
Definition low (n : nat) (l : list Z) : list Z := firstn n l.
Definition high (n : nat) (l : list Z) : list Z := skipn n l.
(* two lists of lanes, lane by lane *)
Fixpoint map2 (h : Z -> Z -> Z) (a b : list Z) : list Z :=
  match a, b with x :: a', y :: b' => h x y :: map2 h a' b' | _, _ => [] end.
(* neighbouring lanes *)
Fixpoint pairs (h : Z -> Z -> Z) (a : list Z) : list Z :=
  match a with x :: y :: a' => h x y :: pairs h a' | _ => [] end.
(* field i, two bits wide, of an immediate; bit i of an immediate *)
Definition imm2 (imm : Z) (i : nat) : nat := Z.to_nat (imm / 4 ^ Z.of_nat i mod 4).
Definition immbit (imm : Z) (i : nat) : bool := Z.testbit imm (Z.of_nat i).

(* ---- SSE ---- *)
(* _mm_loadl_epi64 *)
Definition mm_loadl_epi64 (m : mem) (a : Z) : option (list Z) :=
  let* l := load m a 8 in Some (l ++ repeat 0 8).
(* _mm_storel_epi64 *)
Definition mm_storel_epi64 (m : mem) (a : Z) (x : list Z) : option mem := store m a (low 8 x).
(* _mm_unpacklo_epi16, and the other interleavings of the low (high) halves of
   two 16-byte registers in groups of k bytes *)
Definition unpacklo (k : nat) (a b : list Z) : list Z :=
  flat_map (fun i => grp k i a ++ grp k i b) (seq 0 (8 / k)).
Definition unpackhi (k : nat) (a b : list Z) : list Z :=
  flat_map (fun i => grp k i a ++ grp k i b) (seq (8 / k) (8 / k)).
(* _mm_shuffle_epi32 *)
Definition mm_shuffle_epi32 (a : list Z) (imm : Z) : list Z :=
  flat_map (fun i => grp 4 (imm2 imm i) a) (seq 0 4).
(* _mm_blend_epi16 *)
Definition mm_blend_epi16 (a b : list Z) (imm : Z) : list Z :=
  flat_map (fun i => grp 2 i (if immbit imm i then b else a)) (seq 0 8).
(* _mm_cvtepu8_epi16 (n = 8) and _mm256_cvtepu8_epi16 (n = 16): zero extension
   of the n low bytes to 16-bit lanes *)
Definition cvtepu8_epi16 (n : nat) (a : list Z) : list Z := low n a.
(* _mm_madd_epi16: products of signed 16-bit lanes, neighbours added in 32 bits *)
Definition madd_epi16 (a b : list Z) : list Z :=
  pairs (fun x y => wrapS 32 (x + y)) (map2 (fun x y => wrapS 16 x * wrapS 16 y) a b).
(* _mm_add_epi32 *)
Definition add_epi32 (a b : list Z) : list Z := map2 (fun x y => wrapS 32 (x + y)) a b.

(* a 4-slice, 8-deep block of cells: pack_sse.h 62-121 and, the same code,
   pack_avx.h 216-275.  ptr is src_data, ws is width_stride, da is dst_ptr and
   row is kCellSize * kCells. *)
Definition sse_block (src : mem) (ptr ws : Z) (data : mem) (da row : Z) (sums : mem) (sa : Z) : option (mem * mem) :=
  let* xmm1 := mm_loadl_epi64 src (ptr + 0) in
  let* xmm2 := mm_loadl_epi64 src (ptr + 1 * ws) in
  let* xmm3 := mm_loadl_epi64 src (ptr + 2 * ws) in
  let* xmm4 := mm_loadl_epi64 src (ptr + 3 * ws) in
  let xmm5 := unpacklo 2 xmm1 xmm2 in
  let xmm8 := mm_shuffle_epi32 xmm5 0x31 in
  let xmm6 := unpacklo 2 xmm3 xmm4 in
  let xmm7 := mm_shuffle_epi32 xmm6 0x80 in
  let xmm9 := mm_blend_epi16 xmm5 xmm7 0xcc in
  let xmm10 := mm_blend_epi16 xmm8 xmm6 0xcc in
  let* data := mm_storel_epi64 data (da + 0) xmm9 in
  let* data := mm_storel_epi64 data (da + row) xmm10 in
  let xmm11 := mm_shuffle_epi32 xmm9 0xee in
  let xmm12 := mm_shuffle_epi32 xmm10 0xee in
  let* data := mm_storel_epi64 data (da + 2 * row) xmm11 in
  let* data := mm_storel_epi64 data (da + 3 * row) xmm12 in
  let one := repeat 1 8 in
  let* sums_of_each_slice_xmm := load sums sa 4 in
  let sums_of_each_slice_xmm := add_epi32 sums_of_each_slice_xmm (madd_epi16 (cvtepu8_epi16 8 xmm9) one) in
  let sums_of_each_slice_xmm := add_epi32 sums_of_each_slice_xmm (madd_epi16 (cvtepu8_epi16 8 xmm10) one) in
  let sums_of_each_slice_xmm := add_epi32 sums_of_each_slice_xmm (madd_epi16 (cvtepu8_epi16 8 xmm11) one) in
  let sums_of_each_slice_xmm := add_epi32 sums_of_each_slice_xmm (madd_epi16 (cvtepu8_epi16 8 xmm12) one) in
  let* sums := store sums sa sums_of_each_slice_xmm in
  Some (data, sums).

(* pack_sse.h 50-123 and pack_avx.h 204-277 with depth_step 8, and pack_avx.h
   50-180 with depth_step 16: the loops around one block of slices; group is
   the number of rows of cells one block writes *)
Definition x86_loops (block : mem -> Z -> Z -> mem -> Z -> Z -> mem -> Z -> option (mem * mem))
           (depth_step group : Z) (f : side_fmt) (kreg : Z) (src : side_map) (start_width : Z) (dst : packed) : option packed :=
  let row := sf_cellsize f * sf_cells f in
  let* st :=
    for_step 0 kreg depth_step (fun cell_start_depth st =>
      let* st :=
        for_step 0 (sf_width f) (sf_cw f) (fun cell_start_width st =>
          let '(dst_ptr, data, sums) := st in
          let* ds := block (sm_mem src) (sm_addr src cell_start_width cell_start_depth) (sm_width_stride src)
                       data dst_ptr row sums (start_width + cell_start_width) in
          let '(data, sums) := ds in
          Some (dst_ptr + sf_cellsize f, data, sums)) st in
      let '(dst_ptr, data, sums) := st in
      Some (dst_ptr + (group - 1) * sf_cellsize f * sf_cells f, data, sums))
      (pk_pos dst, pk_data dst, pk_sums dst) in
  let '(_, data, sums) := st in
  Some (seek_forward_n_cells f (Z.quot (sf_cells f * kreg) (sf_cd f)) (mk_packed data sums (pk_pos dst) (pk_behind dst))).
Definition sse_Pack4x2 : side_fmt -> Z -> side_map -> Z -> packed -> option packed := x86_loops sse_block 8 4.

(* ---- AVX2: 32-byte registers; the unpack instructions work inside each
   16-byte half ---- *)
Definition mm256_set_m128i (hi lo : list Z) : list Z := lo ++ hi.
Definition mm256_unpacklo (k : nat) (a b : list Z) : list Z :=
  unpacklo k (low 16 a) (low 16 b) ++ unpacklo k (high 16 a) (high 16 b).
Definition mm256_unpackhi (k : nat) (a b : list Z) : list Z :=
  unpackhi k (low 16 a) (low 16 b) ++ unpackhi k (high 16 a) (high 16 b).
(* _mm256_permute4x64_epi64 *)
Definition mm256_permute4x64_epi64 (a : list Z) (imm : Z) : list Z :=
  flat_map (fun i => grp 8 (imm2 imm i) a) (seq 0 4).

(* an 8-slice, 16-deep block of cells: pack_avx.h 62-177 *)
Definition avx_block (src : mem) (ptr ws : Z) (data : mem) (da row : Z) (sums : mem) (sa : Z) : option (mem * mem) :=
  let* xmm1 := load src (ptr + 0) 16 in
  let* xmm2 := load src (ptr + 1 * ws) 16 in
  let* xmm3 := load src (ptr + 2 * ws) 16 in
  let* xmm4 := load src (ptr + 3 * ws) 16 in
  let* xmm5 := load src (ptr + 4 * ws) 16 in
  let* xmm6 := load src (ptr + 5 * ws) 16 in
  let* xmm7 := load src (ptr + 6 * ws) 16 in
  let* xmm8 := load src (ptr + 7 * ws) 16 in
  let ymm1 := mm256_set_m128i xmm5 xmm1 in
  let ymm2 := mm256_set_m128i xmm6 xmm2 in
  let ymm3 := mm256_set_m128i xmm7 xmm3 in
  let ymm4 := mm256_set_m128i xmm8 xmm4 in
  let ymm5 := mm256_unpacklo 2 ymm1 ymm2 in
  let ymm6 := mm256_unpacklo 2 ymm3 ymm4 in
  let ymm9 := mm256_unpackhi 2 ymm1 ymm2 in
  let ymm10 := mm256_unpackhi 2 ymm3 ymm4 in
  let ymm7 := mm256_unpacklo 4 ymm5 ymm6 in
  let ymm8 := mm256_unpackhi 4 ymm5 ymm6 in
  let ymm13 := mm256_unpacklo 4 ymm9 ymm10 in
  let ymm14 := mm256_unpackhi 4 ymm9 ymm10 in
  let ymm11 := mm256_permute4x64_epi64 ymm7 0xd8 in
  let ymm12 := mm256_permute4x64_epi64 ymm8 0xd8 in
  let ymm15 := mm256_permute4x64_epi64 ymm13 0xd8 in
  let ymm16 := mm256_permute4x64_epi64 ymm14 0xd8 in
  let xmm9 := low 16 ymm11 in
  let xmm10 := low 16 ymm12 in
  let xmm11 := high 16 ymm11 in
  let xmm12 := high 16 ymm12 in
  let xmm1 := low 16 ymm15 in
  let xmm2 := low 16 ymm16 in
  let xmm3 := high 16 ymm15 in
  let xmm4 := high 16 ymm16 in
  let* data := store data (da + 0) xmm9 in
  let* data := store data (da + row) xmm11 in
  let* data := store data (da + 2 * row) xmm10 in
  let* data := store data (da + 3 * row) xmm12 in
  let* data := store data (da + 4 * row) xmm1 in
  let* data := store data (da + 5 * row) xmm3 in
  let* data := store data (da + 6 * row) xmm2 in
  let* data := store data (da + 7 * row) xmm4 in
  let one := repeat 1 16 in
  let* s := load sums sa 8 in
  let s := add_epi32 s (madd_epi16 (cvtepu8_epi16 16 xmm9) one) in
  let s := add_epi32 s (madd_epi16 (cvtepu8_epi16 16 xmm11) one) in
  let s := add_epi32 s (madd_epi16 (cvtepu8_epi16 16 xmm10) one) in
  let s := add_epi32 s (madd_epi16 (cvtepu8_epi16 16 xmm12) one) in
  let s := add_epi32 s (madd_epi16 (cvtepu8_epi16 16 xmm1) one) in
  let s := add_epi32 s (madd_epi16 (cvtepu8_epi16 16 xmm3) one) in
  let s := add_epi32 s (madd_epi16 (cvtepu8_epi16 16 xmm2) one) in
  let s := add_epi32 s (madd_epi16 (cvtepu8_epi16 16 xmm4) one) in
  let* sums := store sums sa s in
  Some (data, sums).
Definition avx_Pack8x2 : side_fmt -> Z -> side_map -> Z -> packed -> option packed := x86_loops avx_block 16 8.

(* ---- NEON ---- *)
(* vzipq_u8 (k = 1) and vzipq_u16 (k = 2): the two result registers *)
Definition vzipq (k : nat) (a b : list Z) : list Z * list Z := (unpacklo k a b, unpackhi k a b).
Definition val (x : list Z * list Z) (inner : Z) : list Z := if inner =? 0 then fst x else snd x.
(* vaddl_u8 and vaddl_u16 (unsigned, 16- and 32-bit results) *)
Definition vaddl_u (w : Z) (a b : list Z) : list Z := map2 (fun x y => wrapU w (x + y)) a b.
(* vaddq_u16, vadd_u16 *)
Definition vadd_u16 (a b : list Z) : list Z := map2 (fun x y => wrapU 16 (x + y)) a b.
(* vaddq_s32 *)
Definition vaddq_s32 (a b : list Z) : list Z := map2 (fun x y => wrapS 32 (x + y)) a b.
(* vreinterpretq_s32_u32 and vreinterpret_s8_u8 *)
Definition as_signed (w : Z) (a : list Z) : list Z := List.map (wrapS w) a.
(* vpaddlq_u8: neighbouring bytes added into 16-bit lanes *)
Definition vpaddlq_u8 (a : list Z) : list Z := pairs (fun x y => wrapU 16 (x + y)) a.
(* vaddl_s8 *)
Definition vaddl_s8 (a b : list Z) : list Z := map2 (fun x y => wrapS 16 (x + y)) a b.
(* vpaddq_s16 (pack_neon.h 249-255 on 32-bit) and vpadd_s16 *)
Definition vpadd_s16 (a b : list Z) : list Z := pairs (fun x y => wrapS 16 (x + y)) (a ++ b).
(* vpadalq_s16, vpadal_s16: neighbouring 16-bit lanes added and accumulated *)
Definition vpadal_s16 (s a : list Z) : list Z := map2 (fun x y => wrapS 32 (x + y)) s (pairs (fun x y => wrapS 32 (x + y)) a).

(* an array of registers *)
Definition regs := Z -> list Z.
Definition set_reg (r : regs) (i : Z) (v : list Z) : regs := fun j => if j =? i then v else r j.

(* pack_neon.h 55-59, 157-174 and 282-286: one line of 16 bytes per slice *)
Definition neon_lines (src : side_map) (n : Z) : option regs :=
  for_step 0 n 1 (fun i r =>
    let* l := load (sm_mem src) (sm_base src + i * sm_stride src) 16 in
    Some (set_reg r i l)) (fun _ => []).

(* pack_neon.h 60-76 (k = 1) and 175-191 (k = 2): entry 2*cell + outer of the
   array src_lines_intertwined_4x *)
Definition intertwined_4x (k : nat) (src_lines : regs) (cell outer : Z) : list Z * list Z :=
  let a := vzipq k (src_lines (4 * cell)) (src_lines (4 * cell + 2)) in
  let b := vzipq k (src_lines (4 * cell + 1)) (src_lines (4 * cell + 3)) in
  vzipq k (val a outer) (val b outer).

(* pack_neon.h 77-93 and 192-208 *)
Definition neon_store (k : nat) (kCells : Z) (src_lines : regs) (data : mem) (dst_ptr : Z) : option (Z * mem) :=
  for_step 0 2 1 (fun outer st =>
    for_step 0 2 1 (fun inner st =>
      let* st :=
        for_step 0 kCells 1 (fun cell st =>
          let '(dst_ptr, data) := st in
          let* data := store data dst_ptr (low 8 (val (intertwined_4x k src_lines cell outer) inner)) in
          Some (dst_ptr + 8, data)) st in
      for_step 0 kCells 1 (fun cell st =>
        let '(dst_ptr, data) := st in
        let* data := store data dst_ptr (high 8 (val (intertwined_4x k src_lines cell outer) inner)) in
        Some (dst_ptr + 8, data)) st) st) (dst_ptr, data).

(* pack_neon.h 116-127 and 237-244, where cell_sum is the register s *)
Definition neon_sums (kCells : Z) (cell_sum : Z -> list Z) (sums : mem) (start_width : Z) : option mem :=
  for_step 0 kCells 1 (fun cell sums =>
    let a := start_width + 4 * cell in
    let* old := load sums a 4 in
    store sums a (vaddq_s32 (cell_sum cell) old)) sums.

(* pack_neon.h 94-122: register s of a cell, depth-major cells *)
Definition depth_major_sum (src_lines : regs) (cell : Z) : list Z :=
  let sums_of_2_cells i :=
    let x := val (intertwined_4x 1 src_lines cell (i / 2)) (i mod 2) in vaddl_u 16 (low 8 x) (high 8 x) in
  let sums_of_4_cells i := as_signed 32 (vaddl_u 32 (low 4 (sums_of_2_cells i)) (high 4 (sums_of_2_cells i))) in
  let s01 := vaddq_s32 (sums_of_4_cells 0) (sums_of_4_cells 1) in
  let s23 := vaddq_s32 (sums_of_4_cells 2) (sums_of_4_cells 3) in
  vaddq_s32 s01 s23.
(* pack_neon.h 209-239: register s of a cell, width-major cells *)
Definition width_major_sum (src_lines : regs) (cell : Z) : list Z :=
  let sums_of_2 i := vpaddlq_u8 (val (intertwined_4x 2 src_lines cell (i / 2)) (i mod 2)) in
  let sums_of_4 i := vadd_u16 (sums_of_2 (2 * i)) (sums_of_2 (2 * i + 1)) in
  let sums_of_8 := vadd_u16 (sums_of_4 0) (sums_of_4 1) in
  let sums_of_16 := vadd_u16 (low 4 sums_of_8) (high 4 sums_of_8) in
  as_signed 32 sums_of_16.

(* pack_neon.h 51-129 and 152-246 *)
Definition neon_Pack4x2 (k : nat) (cell_sum : regs -> Z -> list Z) (f : side_fmt) (kreg : Z) (src : side_map)
           (start_width : Z) (dst : packed) : option packed :=
  let kCells := sf_cells f in
  let* src_lines := neon_lines src (4 * kCells) in
  let* st := neon_store k kCells src_lines (pk_data dst) (pk_pos dst) in
  let '(_, data) := st in
  let* sums := neon_sums kCells (cell_sum src_lines) (pk_sums dst) start_width in
  Some (seek_forward_n_cells f (Z.quot (kCells * kreg) (sf_cd f)) (mk_packed data sums (pk_pos dst) (pk_behind dst))).

(* pack_neon.h 277-318: 16-deep int8 cells, Width = 2 or 4 *)
Definition neon_PackInt8 (f : side_fmt) (src : side_map) (start_width : Z) (dst : packed) : option packed :=
  let Width := sf_cw f in
  let* src_lines := neon_lines src Width in
  let sign_bit_dup := repeat 0x80 16 in
  let src_lines i := map2 Z.lxor (src_lines i) sign_bit_dup in
  let* data := for_step 0 Width 1 (fun i data => store data (pk_pos dst + 16 * i) (src_lines i)) (pk_data dst) in
  let sums2 i := vaddl_s8 (as_signed 8 (low 8 (src_lines i))) (as_signed 8 (high 8 (src_lines i))) in
  let sums4 i := vpadd_s16 (sums2 (2 * i)) (sums2 (2 * i + 1)) in
  let* sums :=
    if Width =? 4 then
      let* sum := load (pk_sums dst) start_width 4 in
      let sums8 := vpadd_s16 (sums4 0) (sums4 1) in
      store (pk_sums dst) start_width (vpadal_s16 sum sums8)
    else
      let* sum := load (pk_sums dst) start_width 2 in
      let sums8 := vpadd_s16 (low 4 (sums4 0)) (high 4 (sums4 0)) in
      store (pk_sums dst) start_width (vpadal_s16 sum sums8) in
  Some (seek_forward_n_cells f 1 (mk_packed data sums (pk_pos dst) (pk_behind dst))).

(* pack_neon.h 321-380: the same without the exclusive or, for int8 sources.
   src_lines are int8x16_t registers, stored as bytes through dst_ptr. *)
Definition neon_PackInt8Inputs (f : side_fmt) (src : side_map) (start_width : Z) (dst : packed) : option packed :=
  let Width := sf_cw f in
  let* src_lines := neon_lines src Width in
  let* data := for_step 0 Width 1 (fun i data => store data (pk_pos dst + 16 * i) (map (wrapU 8) (src_lines i))) (pk_data dst) in
  let sums2 i := vaddl_s8 (low 8 (src_lines i)) (high 8 (src_lines i)) in
  let sums4 i := vpadd_s16 (sums2 (2 * i)) (sums2 (2 * i + 1)) in
  let* sums :=
    if Width =? 4 then
      let* sum := load (pk_sums dst) start_width 4 in
      let sums8 := vpadd_s16 (sums4 0) (sums4 1) in
      store (pk_sums dst) start_width (vpadal_s16 sum sums8)
    else
      let* sum := load (pk_sums dst) start_width 2 in
      let sums8 := vpadd_s16 (low 4 (sums4 0)) (high 4 (sums4 0)) in
      store (pk_sums dst) start_width (vpadal_s16 sum sums8) in
  Some (seek_forward_n_cells f 1 (mk_packed data sums (pk_pos dst) (pk_behind dst))).

(* ---- which code packs: template specialisation on the source order and the
   kernel side format; every other combination uses the generic Pack ---- *)
Definition is_format (cw cd : Z) (o : cell_order) (kind : side_kind) (f : side_fmt) : bool :=
  (sf_cw f =? cw) && (sf_cd f =? cd) && (match sf_kind f, kind with FUint8, FUint8 | FInt8, FInt8 | FInt8Inputs, FInt8Inputs => true | _, _ => false end) &&
  match sf_order f, o with
  | CDepthMajor, CDepthMajor | CWidthMajor, CWidthMajor | CDiagonal, CDiagonal => true | _, _ => false
  end.
(* pack_sse.h 34-40 *)
Definition sse_packer : packer := fun m f kreg src sw dst =>
  match sm_order src with
  | SWidthMajor =>
      if is_format 4 2 CWidthMajor FUint8 f then sse_Pack4x2 f kreg src sw dst else Pack m f kreg src sw dst
  | SDepthMajor => Pack m f kreg src sw dst
  end.
(* pack_avx.h 34-40 and 188-194 *)
Definition avx_packer : packer := fun m f kreg src sw dst =>
  match sm_order src with
  | SWidthMajor =>
      if is_format 8 2 CWidthMajor FUint8 f then avx_Pack8x2 f kreg src sw dst
      else if is_format 4 2 CWidthMajor FUint8 f then sse_Pack4x2 f kreg src sw dst
      else Pack m f kreg src sw dst
  | SDepthMajor => Pack m f kreg src sw dst
  end.
(* pack_neon.h 35-41, 136-142, 257-268 and 321-332; Int8FastKernelFormat and
   Int8InputsFastKernelFormat have one cell, and the static_asserts allow Width 2
   and 4 only.  None: packing int8 input any other way does not compile (see Pack) *)
Definition neon_packer : packer := fun m f kreg src sw dst =>
  match sm_order src with
  | SWidthMajor =>
      if is_format 4 2 CDepthMajor FUint8 f then neon_Pack4x2 1 depth_major_sum f kreg src sw dst
      else if is_format 4 2 CWidthMajor FUint8 f then neon_Pack4x2 2 width_major_sum f kreg src sw dst
      else if (is_format 2 16 CWidthMajor FInt8 f || is_format 4 16 CWidthMajor FInt8 f) && (sf_cells f =? 1)
      then neon_PackInt8 f src sw dst
      else if (is_format 2 16 CWidthMajor FInt8Inputs f || is_format 4 16 CWidthMajor FInt8Inputs f) && (sf_cells f =? 1)
      then neon_PackInt8Inputs f src sw dst
      else Pack m f kreg src sw dst
  | SDepthMajor => check (match sf_kind f with FInt8Inputs => false | _ => true end); Pack m f kreg src sw dst
  end.
