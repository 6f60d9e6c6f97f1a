(* PackMsaModel.v: model of the MSA packing code, pack_msa.h 26-427, in the
   manner of PackSimdModel.v: a register is the list of its lanes, lowest first.
   The lists of 16-bit lanes hold the unsigned readings where the code goes on to
   extend them by zeros, the signed ones elsewhere. *)
From Verif Require Import Base CommonModel PackModel PackSimdModel.

(* __builtin_msa_ilvr_*(ws, wt) and __builtin_msa_ilvl_*(ws, wt): the n elements
   of k entries in the right (left) halves of ws and wt, interleaved, wt first *)
Definition msa_ilvr (n k : nat) (ws wt : list Z) : list Z :=
  flat_map (fun i => grp k i wt ++ grp k i ws) (seq 0 n).
Definition msa_ilvl (n k : nat) (ws wt : list Z) : list Z :=
  flat_map (fun i => grp k i wt ++ grp k i ws) (seq n n).
(* __builtin_msa_insve_d(wd, 0, ws): the low 64 bits of wd replaced by those of ws *)
Definition msa_insve_d0 (wd ws : list Z) : list Z := low 8 ws ++ high 8 wd.
(* neighbouring lanes of w bits read as one lane of 2*w bits *)
Definition widen (w : Z) (l : list Z) : list Z := pairs (fun lo hi => lo + 2 ^ w * hi) l.
(* __builtin_msa_addv_h (unsigned reading) and __builtin_msa_addv_w *)
Definition msa_addv_h (a b : list Z) : list Z := map2 (fun x y => wrapU 16 (x + y)) a b.
Definition msa_addv_w (a b : list Z) : list Z := map2 (fun x y => wrapS 32 (x + y)) a b.
(* the lanes with odd and with even numbers *)
Definition odds (l : list Z) : list Z := pairs (fun _ y => y) l.
Definition evens (l : list Z) : list Z := pairs (fun x _ => x) l.
(* __builtin_msa_hadd_u_h(ws, wt), hadd_s_h, hadd_s_w and hadd_s_d: odd lanes of ws
   plus even lanes of wt, in lanes of w bits *)
Definition msa_hadd_u (w : Z) (ws wt : list Z) : list Z := map2 (fun x y => wrapU w (x + y)) (odds ws) (evens wt).
Definition msa_hadd_s (w : Z) (ws wt : list Z) : list Z := map2 (fun x y => wrapS w (x + y)) (odds ws) (evens wt).
(* __builtin_msa_pckev_h(ws, wt) on 32-bit lanes: their low 16 bits, wt first *)
Definition msa_pckev_h (ws wt : list Z) : list Z := as_signed 16 wt ++ as_signed 16 ws.
(* __builtin_msa_bnegi_b(a, i): bit i of every byte flipped *)
Definition msa_bnegi_b (a : list Z) (i : Z) : list Z := List.map (fun x => Z.lxor x (2 ^ i)) a.

(* pack_msa.h 58-84 (k = 1, n = 8) and 221-247 (k = 2, n = 4): entry
   [2*cell + outer][inner] of src_lines_intertwined_4x *)
Definition msa_ilv (n k : nat) (second : bool) (ws wt : list Z) : list Z :=
  if second then msa_ilvl n k ws wt else msa_ilvr n k ws wt.
Definition msa_intertwined_4x (k : nat) (src_lines : regs) (cell outer inner : Z) : list Z :=
  let n := (8 / k)%nat in
  let two i := msa_ilv n k (negb (outer =? 0)) (src_lines (4 * cell + 2 + i)) (src_lines (4 * cell + i)) in
  msa_ilv n k (negb (inner =? 0)) (two 1) (two 0).

(* a store of 16 bytes, and dst_ptr += 16 *)
Definition st_b (st : Z * mem) (x : list Z) : option (Z * mem) :=
  let '(dst_ptr, data) := st in
  let* data := store data dst_ptr x in
  Some (dst_ptr + 16, data).
(* pack_msa.h 88-137 and 251-300: the stores for one value of outer and inner,
   where x c is the register src_lines_intertwined_4x[2*c + outer][inner] *)
Definition msa_store_row (kCells : Z) (x : Z -> list Z) (st : Z * mem) : option (Z * mem) :=
  if Z.rem kCells 2 =? 0 then
    let* st := for_step 0 kCells 2 (fun cell st => st_b st (msa_ilvr 1 8 (x (cell + 1)) (x cell))) st in
    for_step 0 kCells 2 (fun cell st => st_b st (msa_ilvl 1 8 (x (cell + 1)) (x cell))) st
  else
    let* st := for_step 0 (kCells - 1) 2 (fun cell st => st_b st (msa_ilvr 1 8 (x (cell + 1)) (x cell))) st in
    let* st := st_b st (msa_insve_d0 (x 0) (x (kCells - 1))) in
    for_step 1 kCells 2 (fun cell st => st_b st (msa_ilvl 1 8 (x (cell + 1)) (x cell))) st.
(* pack_msa.h 85-139 and 248-302 *)
Definition msa_store (k : nat) (kCells : Z) (src_lines : regs) (data : mem) (dst_ptr : Z) : option (Z * mem) :=
  for_step 0 2 1 (fun outer st =>
    for_step 0 2 1 (fun inner st =>
      msa_store_row kCells (fun c => msa_intertwined_4x k src_lines c outer inner) st) st) (dst_ptr, data).

(* pack_msa.h 172-177 and 340-346, where cell_sum is the register added *)
Definition msa_sums (kCells : Z) (cell_sum : Z -> list Z) (sums : mem) (start_width : Z) : option mem :=
  for_step 0 kCells 1 (fun cell sums =>
    let a := start_width + 4 * cell in
    let* tmp := load sums a 4 in
    store sums a (msa_addv_w tmp (cell_sum cell))) sums.

(* pack_msa.h 140-171: register s of a cell, depth-major cells *)
Definition msa_depth_major_sum (src_lines : regs) (cell : Z) : list Z :=
  let sums_of_2_cells i :=
    let x := msa_intertwined_4x 1 src_lines cell (i / 2) (i mod 2) in
    let zeroes := repeat 0 16 in
    msa_addv_h (widen 8 (msa_ilvr 8 1 zeroes x)) (widen 8 (msa_ilvl 8 1 zeroes x)) in
  let sums_of_4_cells i :=
    let zeroes := repeat 0 8 in
    msa_addv_w (widen 16 (msa_ilvr 4 1 zeroes (sums_of_2_cells i))) (widen 16 (msa_ilvl 4 1 zeroes (sums_of_2_cells i))) in
  let s01 := msa_addv_w (sums_of_4_cells 0) (sums_of_4_cells 1) in
  let s23 := msa_addv_w (sums_of_4_cells 2) (sums_of_4_cells 3) in
  msa_addv_w s01 s23.
(* pack_msa.h 303-338: sums_of_16 of a cell, width-major cells *)
Definition msa_width_major_sum (src_lines : regs) (cell : Z) : list Z :=
  let sums_of_2 i :=
    let x := msa_intertwined_4x 2 src_lines cell (i / 2) (i mod 2) in msa_hadd_u 16 x x in
  let sums_of_4 i := msa_addv_h (sums_of_2 (2 * i)) (sums_of_2 (2 * i + 1)) in
  let sums_of_8 := msa_addv_h (sums_of_4 0) (sums_of_4 1) in
  let zeroes := repeat 0 8 in
  msa_addv_w (widen 16 (msa_ilvr 4 1 zeroes sums_of_8)) (widen 16 (msa_ilvl 4 1 zeroes sums_of_8)).

(* pack_msa.h 48-179 and 202-348.  The loads of the lines (52-57, 206-220) are
   those of the NEON code. *)
Definition msa_Pack4x2 (k : nat) (cell_sum : regs -> Z -> list Z) (f : side_fmt) (kreg : Z) (src : side_map)
           (start_width : Z) (dst : packed) : option packed :=
  let kCells := sf_cells f in
  let* src_lines := neon_lines src (4 * kCells) in
  let* st := msa_store k kCells src_lines (pk_data dst) (pk_pos dst) in
  let '(_, data) := st in
  let* sums := msa_sums kCells (cell_sum src_lines) (pk_sums dst) start_width in
  Some (seek_forward_n_cells f (Z.quot (kCells * kreg) (sf_cd f)) (mk_packed data sums (pk_pos dst) (pk_behind dst))).

(* pack_msa.h 371-426: 16-deep int8 cells, Width = 2 or 4.  For Width = 2 the sums
   are added as ints (418-423), which can overflow; the 64-bit lanes of sums16 are
   read by their low 32 bits (lanes 0 and 2, 420-421). *)
Definition msa_PackInt8 (m : ovf) (f : side_fmt) (src : side_map) (start_width : Z) (dst : packed) : option packed :=
  let Width := sf_cw f in
  let* src_lines := neon_lines src Width in
  let src_lines i := msa_bnegi_b (src_lines i) 7 in
  let* data := for_step 0 Width 1 (fun i data => store data (pk_pos dst + 16 * i) (src_lines i)) (pk_data dst) in
  let sums2 i := let x := as_signed 8 (src_lines i) in msa_hadd_s 16 x x in
  let sums4_wide i := msa_hadd_s 32 (sums2 i) (sums2 i) in
  let sums4 i := msa_pckev_h (sums4_wide (2 * i + 1)) (sums4_wide (2 * i)) in
  let sums8_wide i := msa_hadd_s 32 (sums4 i) (sums4 i) in
  let* sums :=
    if Width =? 4 then
      let* sum := load (pk_sums dst) start_width 4 in
      let sums8 := msa_pckev_h (sums8_wide 1) (sums8_wide 0) in
      let sums16 := msa_hadd_s 32 sums8 sums8 in
      store (pk_sums dst) start_width (msa_addv_w sum sums16)
    else
      let* sum := load (pk_sums dst) start_width 2 in
      let sums16 := msa_hadd_s 64 (sums8_wide 0) (sums8_wide 0) in
      let* sum0 := norm m 32 (nth 0 sum 0 + wrapS 32 (nth 0 sums16 0)) in
      let* sum1 := norm m 32 (nth 1 sum 0 + wrapS 32 (nth 1 sums16 0)) in
      store (pk_sums dst) start_width [sum0; sum1] in
  Some (seek_forward_n_cells f 1 (mk_packed data sums (pk_pos dst) (pk_behind dst))).

(* pack_msa.h 29-38, 182-192 and 351-362: which code packs.  There is no code for
   int8 input; packing it does not compile (see Pack). *)
Definition msa_packer : packer := fun m f kreg src sw dst =>
  match sm_order src with
  | SWidthMajor =>
      if is_format 4 2 CDepthMajor FUint8 f then msa_Pack4x2 1 msa_depth_major_sum f kreg src sw dst
      else if is_format 4 2 CWidthMajor FUint8 f then msa_Pack4x2 2 msa_width_major_sum f kreg src sw dst
      else if (is_format 2 16 CWidthMajor FInt8 f || is_format 4 16 CWidthMajor FInt8 f) && (sf_cells f =? 1)
      then msa_PackInt8 m f src sw dst
      else Pack m f kreg src sw dst
  | SDepthMajor => Pack m f kreg src sw dst
  end.

(* the builds: pack.h 434-442 selects the packing code and common.h 111-115 the
   register size.  The SSE loops work for every multiple of 8. *)
Inductive simd_packer (kreg : Z) : packer -> Prop :=
  | sp_sse : (8 | kreg) -> 0 < kreg -> simd_packer kreg sse_packer
  | sp_avx : (16 | kreg) -> 0 < kreg -> simd_packer kreg avx_packer
  | sp_neon : kreg = 16 -> simd_packer kreg neon_packer
  | sp_msa : kreg = 16 -> simd_packer kreg msa_packer.
