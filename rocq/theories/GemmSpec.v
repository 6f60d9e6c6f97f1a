(* GemmSpec.v: what a GEMM is supposed to compute, written without any of the
   model's packing, kernel or unpacking definitions. *)
From Verif Require Import Base CommonModel PackModel.

(* Entry (r,c) of a matrix view: base, stride and storage order only. *)
Definition entry_addr (M : matrix_map) (r c : Z) : Z :=
  match mm_order M with
  | ColMajor => mm_base M + r + c * mm_stride M
  | RowMajor => mm_base M + r * mm_stride M + c
  end.

(* The matrix seen through view M of memory [input] is g, with entries of an
   8-bit type whose least value is lo. *)
Definition holds_entries (lo : Z) (input : mem) (M : matrix_map) (g : Z -> Z -> Z) : Prop :=
  forall r c, 0 <= r < mm_rows M -> 0 <= c < mm_cols M ->
    input (entry_addr M r c) = Some (g r c) /\ lo <= g r c <= lo + 255.
(* a uint8 matrix *)
Definition holds_matrix : mem -> matrix_map -> (Z -> Z -> Z) -> Prop := holds_entries 0.
(* The operands of a kernel whose sides have format f: entries of the input type
   of the format.  With int8 input only row-major left and column-major right
   operands can be packed (see PackSpec.v). *)
Definition holds_lhs (f : side_fmt) (input : mem) (M : matrix_map) (g : Z -> Z -> Z) : Prop :=
  holds_entries (in_min f) input M g /\ (sf_kind f = FInt8Inputs -> mm_order M = RowMajor).
Definition holds_rhs (f : side_fmt) (input : mem) (M : matrix_map) (g : Z -> Z -> Z) : Prop :=
  holds_entries (in_min f) input M g /\ (sf_kind f = FInt8Inputs -> mm_order M = ColMajor).
(* kernels whose formats read uint8 matrices *)
Definition takes_uint8 (k : kernel_fmt) : Prop := sf_kind (kf_lhs k) <> FInt8Inputs /\ sf_kind (kf_rhs k) <> FInt8Inputs.

(* sum over d < depth of (L(r,d) + lo(r)) * (R(d,c) + ro(c)) *)
Definition offset_product (L R : Z -> Z -> Z) (lo ro : Z -> Z) (depth r c : Z) : Z :=
  sumZ (fun d => (L r d + lo r) * (R d c + ro c)) 0 depth.

(* The value a kernel operand byte stands for: uint8, or int8. *)
Definition operand_value (signed : bool) (b : Z) : Z := if signed then wrapS 8 b else b.

(* A buffer of n cells, and a buffer of n bytes *)
Definition allocated (m : mem) (n : Z) : Prop := forall a, 0 <= a < n -> exists v, m a = Some v.
Definition byte_buffer (m : mem) (n : Z) : Prop :=
  forall a, 0 <= a < n -> exists v, m a = Some v /\ 0 <= v < 256.
