(* CommonModel.v: model of internal/common.h (integer helpers), kernel.h
   (cell and kernel formats) and block_params.h.
   Simplification: sizes are unbounded integers here (no int overflow); the
   machine versions of the rounding helpers are RoundDown32 / RoundUp32 below
   and are proved equal to the unbounded ones in range. *)
From Verif Require Import Base.

(* common.h 136-139, for i >= 0 *)
Definition RoundDown (modulus i : Z) : Z := i - i mod modulus.
(* common.h 143-146, for i >= 0 *)
Definition RoundUp (modulus i : Z) : Z := RoundDown modulus (i + modulus - 1).
(* common.h 149-152; C++ division truncates *)
Definition CeilQuotient (a b : Z) : Z := Z.quot (a + b - 1) b.

(* common.h 136-146 with Integer = int: Modulus is an unsigned template
   argument, so the arithmetic is modulo 2^32 and the result is converted to
   int at the end *)
Definition RoundDown32 (modulus i : Z) : Z :=
  let u := wrapU 32 i in wrapS 32 (wrapU 32 (u - u mod modulus)).
Definition RoundUp32 (modulus i : Z) : Z :=
  let u := wrapU 32 (i + modulus - 1) in wrapS 32 (wrapU 32 (u - u mod modulus)).

(* common.h 155-164 with a w-bit unsigned Integer (std::size_t: w = 64) *)
Definition RoundUpToPowerOfTwo (w n : Z) : Z :=
  let i := wrapU w (n - 1) in
  let i := Z.lor i (Z.shiftr i 1) in
  let i := Z.lor i (Z.shiftr i 2) in
  let i := Z.lor i (Z.shiftr i 4) in
  let i := Z.lor i (Z.shiftr i 8) in
  let i := Z.lor i (Z.shiftr i 16) in
  wrapU w (i + 1).

(* ------------------------------------------------------------------ *)
(* kernel.h 123 *)
Inductive cell_order := CDepthMajor | CWidthMajor | CDiagonal.

(* kernel.h 142-166: KernelSideFormat (Scalar and InputScalar are uint8),
   KernelSideFormatInt8 (Scalar is int8, InputScalar uint8) and
   KernelSideFormatInt8Inputs (both are int8) *)
Inductive side_kind := FUint8 | FInt8 | FInt8Inputs.
(* kernel.h 127-166: CellFormat and KernelSideFormat *)
Record side_fmt := mk_side_fmt {
  sf_cw : Z;             (* Cell::kWidth *)
  sf_cd : Z;             (* Cell::kDepth *)
  sf_order : cell_order; (* Cell::kOrder *)
  sf_cells : Z;          (* kCells *)
  sf_kind : side_kind    (* Scalar and InputScalar *)
}.
Definition sf_width (f : side_fmt) : Z := sf_cells f * sf_cw f.
Definition sf_cellsize (f : side_fmt) : Z := sf_cw f * sf_cd f.
(* Scalar is int8 *)
Definition sf_signed (f : side_fmt) : bool := match sf_kind f with FUint8 => false | FInt8 | FInt8Inputs => true end.
(* kernel.h 231-247: ZeroPointInputValue<InputScalar, Scalar>::kValue: 128 when
   uint8 input is packed as int8, 0 otherwise *)
Definition sf_zp (f : side_fmt) : Z := match sf_kind f with FInt8 => 128 | FUint8 | FInt8Inputs => 0 end.
(* the least value of InputScalar *)
Definition in_min (f : side_fmt) : Z := match sf_kind f with FInt8Inputs => -128 | FUint8 | FInt8 => 0 end.

(* kernel.h 170-179, together with the build's kRegisterSize (common.h 111-115) *)
Record kernel_fmt := mk_kernel_fmt {
  kf_lhs : side_fmt; kf_rhs : side_fmt; kf_reg : Z }.
Definition kRows (k : kernel_fmt) : Z := sf_cw (kf_lhs k) * sf_cells (kf_lhs k).
Definition kCols (k : kernel_fmt) : Z := sf_cw (kf_rhs k) * sf_cells (kf_rhs k).
Definition kDepth (k : kernel_fmt) : Z := sf_cd (kf_lhs k).

(* kernel.h 196-211 *)
Definition OffsetIntoCell (f : side_fmt) (w d : Z) : option Z :=
  match sf_order f with
  | CDepthMajor => Some (w + d * sf_cw f)
  | CWidthMajor => Some (d + w * sf_cd f)
  | CDiagonal =>
      check (sf_cw f =? sf_cd f);
      let size := sf_cw f in
      Some (((size + w - d) * size + d) mod (size * size))
  end.

(* The formats an actual kernel may have: what the static asserts and the
   packing code require. *)
Definition side_fmt_ok (f : side_fmt) : Prop :=
  0 < sf_cw f /\ 0 < sf_cd f /\ 0 < sf_cells f /\
  (sf_order f = CDiagonal -> sf_cw f = sf_cd f).
Definition kernel_fmt_ok (k : kernel_fmt) : Prop :=
  side_fmt_ok (kf_lhs k) /\ side_fmt_ok (kf_rhs k) /\
  sf_cd (kf_lhs k) = sf_cd (kf_rhs k) /\
  0 < kf_reg k /\ (sf_cd (kf_lhs k) | kf_reg k).

(* ------------------------------------------------------------------ *)
(* block_params.h 32-53.  The float l2_rhs_factor enters only through
   static_cast<int>(l2_rhs_factor * x) (None when that conversion is
   undefined) and the test l2_rhs_factor == 1.0f: both are oracles. *)
Record rhs_factor := { rf_mul : Z -> option Z; rf_is_one : bool }.
Record tuning := { t_l1_bytes : Z; t_l2_bytes : Z; t_factor : rhs_factor }.
Record block_params := { bp_l1_rows : Z; bp_l1_cols : Z; bp_l1_depth : Z;
                         bp_l2_rows : Z; bp_l2_cols : Z; bp_l2_depth : Z }.

(* C++ integer division, undefined for divisor 0 *)
Definition cdiv (a b : Z) : option Z := if b =? 0 then None else Some (Z.quot a b).

(* block_params.h 55-101 *)
Definition FindL2BlockSizes (k : kernel_fmt) (rows cols depth num_threads : Z)
           (l2_bytes : Z) (rf : rhs_factor) : option (Z * Z * Z) :=
  let* q := cdiv (RoundUp (kRows k) rows) num_threads in
  let per_thread_rows := Z.max 1 q in
  let l2_depth := RoundUp (kf_reg k) depth in
  let* bytes_over_depth := cdiv l2_bytes l2_depth in
  let* prod := rf_mul rf bytes_over_depth in
  let max_cache_friendly_l2_cols := Z.max 1 prod in
  let min_l2_cols_blocks := Z.max 1 (CeilQuotient cols max_cache_friendly_l2_cols) in
  let l2_cols := RoundUp (kCols k) (CeilQuotient cols min_l2_cols_blocks) in
  if rf_is_one rf then
    Some (RoundUp (kRows k) per_thread_rows, l2_cols, l2_depth)
  else
    let* q2 := cdiv (l2_bytes - l2_depth * l2_cols) (num_threads * (l2_depth + 4 * l2_cols)) in
    let max_cache_friendly_l2_rows := Z.max 1 q2 in
    let min_l2_rows_blocks := Z.max 1 (CeilQuotient per_thread_rows max_cache_friendly_l2_rows) in
    Some (RoundUp (kRows k) (CeilQuotient per_thread_rows min_l2_rows_blocks), l2_cols, l2_depth).

(* block_params.h 103-142 *)
Definition FindL1BlockSizes (k : kernel_fmt) (rows cols depth l1_bytes : Z) : option (Z * Z * Z) :=
  check (rows mod kRows k =? 0);
  check (cols mod kCols k =? 0);
  check (depth mod kDepth k =? 0);
  let l1_cols := cols in
  let* q := cdiv (l1_bytes - 4 * kRows k * kCols k) (kRows k + kCols k) in
  let max_cache_friendly_l1_depth := Z.max 1 q in
  let min_l1_depth_blocks := Z.max 1 (CeilQuotient depth max_cache_friendly_l1_depth) in
  let l1_depth := RoundUp (kf_reg k) (CeilQuotient depth min_l1_depth_blocks) in
  let* q2 := cdiv l1_bytes (l1_depth + 4 * l1_cols) in
  let max_cache_friendly_l1_rows := Z.max 1 q2 in
  let min_l1_rows_blocks := Z.max 1 (CeilQuotient rows max_cache_friendly_l1_rows) in
  let l1_rows := RoundUp (kRows k) (CeilQuotient rows min_l1_rows_blocks) in
  Some (l1_rows, l1_cols, l1_depth).

(* block_params.h 45-53 *)
Definition BlockParams_Init (k : kernel_fmt) (rows cols depth num_threads : Z) (t : tuning)
  : option block_params :=
  let* (l2_rows, l2_cols, l2_depth) :=
     FindL2BlockSizes k rows cols depth num_threads (t_l2_bytes t) (t_factor t) in
  let* (l1_rows, l1_cols, l1_depth) :=
     FindL1BlockSizes k l2_rows l2_cols l2_depth (t_l1_bytes t) in
  Some {| bp_l1_rows := l1_rows; bp_l1_cols := l1_cols; bp_l1_depth := l1_depth;
          bp_l2_rows := l2_rows; bp_l2_cols := l2_cols; bp_l2_depth := l2_depth |}.

(* block_params.h 150-173 *)
Record side_params := { sp_l1_width : Z; sp_l1_depth : Z; sp_l2_width : Z; sp_l2_depth : Z }.
Inductive side := Lhs | Rhs.
Definition GetSideBlockParams (s : side) (bp : block_params) : side_params :=
  {| sp_l1_width := match s with Lhs => bp_l1_rows bp | Rhs => bp_l1_cols bp end;
     sp_l1_depth := bp_l1_depth bp;
     sp_l2_width := match s with Lhs => bp_l2_rows bp | Rhs => bp_l2_cols bp end;
     sp_l2_depth := bp_l2_depth bp |}.
