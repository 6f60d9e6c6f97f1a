(* UnpackModel.v: model of internal/unpack.h.  The result of unpacking is the
   list of stores into the destination, in program order. *)
From Verif Require Import Base CommonModel PackModel FixedPointModel ComputeModel OutputModel.

(* for (; i < stop; i += step) body, also returning the final i *)
Fixpoint for_loop_ix {S} (fuel : nat) (i stop step : Z)
         (body : Z -> S -> option S) (s : S) : option (Z * S) :=
  if i <? stop then
    match fuel with
    | O => None
    | Datatypes.S n =>
        let* s' := body i s in for_loop_ix n (i + step) stop step body s'
    end
  else Some (i, s).
Definition for_ix {S} (start stop step : Z) (body : Z -> S -> option S) (s : S) : option (Z * S) :=
  for_loop_ix (Z.to_nat (stop - start)) start stop step body s.

(* unpack.h 89-127 *)
Definition UnpackResultBlock (m : ovf) (k : kernel_fmt) (R C : Z) (src : mem) (src_map : matrix_map)
    (p : list stage) (dst : matrix_map) (lhs_sums rhs_sums lhs_offset rhs_offset : vec)
    (depth src_row src_col src_global_row src_global_col dst_row dst_col : Z)
  : option (list (Z * Z)) :=
  let* acc := LoadColMajor R C src src_map src_row src_col in
  let* lhs_sums_block := LoadForBroadcasting R C lhs_sums src_row in
  let* rhs_sums_block := LoadForBroadcasting R C rhs_sums src_col in
  let* lhs_offset_block := LoadForBroadcasting R C lhs_offset src_row in
  let* rhs_offset_block := LoadForBroadcasting R C rhs_offset src_col in
  let* lhs_offset_block := AddConstant m (sf_zp (kf_lhs k)) lhs_offset_block in
  let* rhs_offset_block := AddConstant m (sf_zp (kf_rhs k)) rhs_offset_block in
  let* acc := BroadcastMulAdd m lhs_sums_block rhs_offset_block acc in
  let* rhs_offset_block := block_map (fun x => Mul m 32 x depth) rhs_offset_block in
  let* s := BroadcastAdd m rhs_sums_block rhs_offset_block in
  let* acc := BroadcastMulAdd m s lhs_offset_block acc in
  Execute m p acc dst src_global_row src_global_col dst_row dst_col.

(* unpack.h 58-69 *)
Record bounds := mk_bounds { bb_row : Z; bb_col : Z; bb_rows : Z; bb_cols : Z }.

(* the three row loops that occur in each column strip: by 8, then 4, then 1 *)
Definition row_loops {S} (rows : Z) (b8 b4 b1 : Z -> S -> option S) (s : S) : option S :=
  let* (r, s) := for_ix 0 (rows - 8 + 1) 8 b8 s in
  let* (r, s) := for_ix r (rows - 4 + 1) 4 b4 s in
  let* (_, s) := for_ix r rows 1 b1 s in
  Some s.

(* unpack.h 129-276 without the assertions: the tiles of the block and the order
   in which they are unpacked.  block R C d r c gr gc dr dc is one
   UnpackResultBlock call for an R x C register block, storing to the map d;
   store88 buf r c loads 8x8 entries from a buffer and stores them to dst at
   (r, c); junk is the initial contents of dst_colmajor_buf.  Prefetches (71-87)
   have no effect. *)
Definition UnpackTiles (block : Z -> Z -> matrix_map -> Z -> Z -> Z -> Z -> Z -> Z -> option (list (Z * Z)))
    (store88 : mem -> Z -> Z -> option (list (Z * Z)))
    (junk : Z -> Z) (dst : matrix_map) (blk : bounds) : option (list (Z * Z)) :=
  (* one UnpackResultBlock call writing to dst itself *)
  let tile R C r c log :=
    let* l := block R C dst r c (r + bb_row blk) (c + bb_col blk) (r + bb_row blk) (c + bb_col blk) in
    Some (log ++ l) in
  let* (c8, log) :=
    match mm_order dst with
    | RowMajor =>
        for_ix 0 (bb_cols blk - 8 + 1) 8 (fun c8 log =>
          row_loops (bb_rows blk)
            (fun r log =>
               let dst_colmajor_buf := local_buf 64 junk in
               let dst_colmajor_map := mk_map 0 8 8 8 ColMajor in
               let* buf :=
                 for_step 0 8 4 (fun cx buf =>
                   let c := c8 + cx in
                   let* l := block 8 4 dst_colmajor_map r c (r + bb_row blk) (c + bb_col blk) 0 cx in
                   perform l buf) dst_colmajor_buf in
               let* l := store88 buf (r + bb_row blk) (c8 + bb_col blk) in
               Some (log ++ l))
            (fun r log => for_step 0 8 4 (fun cx log => tile 4 4 r (c8 + cx) log) log)
            (fun r log => for_step 0 8 4 (fun cx log => tile 1 4 r (c8 + cx) log) log) log) []
    | ColMajor => Some (0, [])
    end in
  let* (c, log) :=
    for_ix c8 (bb_cols blk - 4 + 1) 4 (fun c log =>
      row_loops (bb_rows blk) (fun r log => tile 8 4 r c log) (fun r log => tile 4 4 r c log)
        (fun r log => tile 1 4 r c log) log) log in
  let* (_, log) :=
    for_ix c (bb_cols blk) 1 (fun c log =>
      row_loops (bb_rows blk) (fun r log => tile 8 1 r c log) (fun r log => tile 4 1 r c log)
        (fun r log => tile 1 1 r c log) log) log in
  Some log.

(* unpack.h 129-276 with the generic (scalar) register blocks.  src is the
   memory of the packed result, lhs_sums_mem and rhs_sums_mem those of the sums
   of each slice. *)
Definition UnpackResult (m : ovf) (k : kernel_fmt) (junk : Z -> Z) (dst : matrix_map) (blk : bounds)
    (src : mem) (src_map : matrix_map) (depth : Z) (lhs_sums_mem rhs_sums_mem : mem)
    (lhs_offset rhs_offset : vec) (p : list stage) : option (list (Z * Z)) :=
  check (0 <=? bb_row blk); check (bb_row blk + bb_rows blk <=? mm_rows dst);
  check (0 <=? bb_col blk); check (bb_col blk + bb_cols blk <=? mm_cols dst);
  let lhs_sums := VMap VCol (mk_vmap lhs_sums_mem 0 (bb_rows blk)) in
  let rhs_sums := VMap VRow (mk_vmap rhs_sums_mem 0 (bb_cols blk)) in
  UnpackTiles
    (fun R C d => UnpackResultBlock m k R C src src_map p d lhs_sums rhs_sums lhs_offset rhs_offset depth)
    (fun buf r c => let* b := LoadContiguous 8 8 buf in StoreFinalOutput b dst r c)
    junk dst blk.
