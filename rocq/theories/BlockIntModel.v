(* BlockIntModel.v: model of block_params.h with C++ int arithmetic.  It follows
   CommonModel.v expression by expression; an int overflow is wrap-around (Wrap) or
   None (Trap).  RoundUp computes in unsigned (RoundUp32), because its Modulus is
   unsigned.  Simplification: INT_MIN / -1 does not arise, as num_threads is positive. *)
From Verif Require Import Base CommonModel.

(* common.h 149-152 with Integer = int *)
Definition CeilQuotient_int (m : ovf) (a b : Z) : option Z :=
  let* s := norm m 32 (a + b) in
  let* s := norm m 32 (s - 1) in
  cdiv s b.

(* block_params.h 55-101 *)
Definition FindL2BlockSizes_int (m : ovf) (k : kernel_fmt) (rows cols depth num_threads : Z)
           (l2_bytes : Z) (rf : rhs_factor) : option (Z * Z * Z) :=
  let* q := cdiv (RoundUp32 (kRows k) rows) num_threads in
  let per_thread_rows := Z.max 1 q in
  let l2_depth := RoundUp32 (kf_reg k) depth in
  let* bytes_over_depth := cdiv l2_bytes l2_depth in
  let* prod := rf_mul rf bytes_over_depth in
  let max_cache_friendly_l2_cols := Z.max 1 prod in
  let* b := CeilQuotient_int m cols max_cache_friendly_l2_cols in
  let min_l2_cols_blocks := Z.max 1 b in
  let* c := CeilQuotient_int m cols min_l2_cols_blocks in
  let l2_cols := RoundUp32 (kCols k) c in
  if rf_is_one rf then
    Some (RoundUp32 (kRows k) per_thread_rows, l2_cols, l2_depth)
  else
    let* rhs := norm m 32 (l2_depth * l2_cols) in
    let* rest := norm m 32 (l2_bytes - rhs) in
    let* c4 := norm m 32 (4 * l2_cols) in
    let* sum := norm m 32 (l2_depth + c4) in
    let* per_row := norm m 32 (num_threads * sum) in
    let* q2 := cdiv rest per_row in
    let max_cache_friendly_l2_rows := Z.max 1 q2 in
    let* b := CeilQuotient_int m per_thread_rows max_cache_friendly_l2_rows in
    let min_l2_rows_blocks := Z.max 1 b in
    let* r := CeilQuotient_int m per_thread_rows min_l2_rows_blocks in
    Some (RoundUp32 (kRows k) r, l2_cols, l2_depth).

(* block_params.h 103-142 *)
Definition FindL1BlockSizes_int (m : ovf) (k : kernel_fmt) (rows cols depth l1_bytes : Z) : option (Z * Z * Z) :=
  check (rows mod kRows k =? 0);
  check (cols mod kCols k =? 0);
  check (depth mod kDepth k =? 0);
  let l1_cols := cols in
  let* r4 := norm m 32 (4 * kRows k) in
  let* acc := norm m 32 (r4 * kCols k) in
  let* rest := norm m 32 (l1_bytes - acc) in
  let* both := norm m 32 (kRows k + kCols k) in
  let* q := cdiv rest both in
  let max_cache_friendly_l1_depth := Z.max 1 q in
  let* b := CeilQuotient_int m depth max_cache_friendly_l1_depth in
  let min_l1_depth_blocks := Z.max 1 b in
  let* d := CeilQuotient_int m depth min_l1_depth_blocks in
  let l1_depth := RoundUp32 (kf_reg k) d in
  let* c4 := norm m 32 (4 * l1_cols) in
  let* sum := norm m 32 (l1_depth + c4) in
  let* q2 := cdiv l1_bytes sum in
  let max_cache_friendly_l1_rows := Z.max 1 q2 in
  let* b := CeilQuotient_int m rows max_cache_friendly_l1_rows in
  let min_l1_rows_blocks := Z.max 1 b in
  let* r := CeilQuotient_int m rows min_l1_rows_blocks in
  let l1_rows := RoundUp32 (kRows k) r in
  Some (l1_rows, l1_cols, l1_depth).

(* block_params.h 45-53 *)
Definition BlockParams_Init_int (m : ovf) (k : kernel_fmt) (rows cols depth num_threads : Z) (t : tuning)
  : option block_params :=
  let* (l2_rows, l2_cols, l2_depth) :=
     FindL2BlockSizes_int m k rows cols depth num_threads (t_l2_bytes t) (t_factor t) in
  let* (l1_rows, l1_cols, l1_depth) :=
     FindL1BlockSizes_int m k l2_rows l2_cols l2_depth (t_l1_bytes t) in
  Some {| bp_l1_rows := l1_rows; bp_l1_cols := l1_cols; bp_l1_depth := l1_depth;
          bp_l2_rows := l2_rows; bp_l2_cols := l2_cols; bp_l2_depth := l2_depth |}.
