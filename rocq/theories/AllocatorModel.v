(* AllocatorModel.v: model of internal/allocator.h with a 64-bit std::size_t.
   A failed assertion is None.  The operating system's aligned allocation is a
   function os from the requested size to an address, 0 being nullptr. *)
From Verif Require Import Base CommonModel.

(* 46, 65-70; a const type has the identifier of the type itself, 56-57 *)
Inductive type_id := TUint8 | TInt8 | TUint16 | TInt16 | TUint32 | TInt32.
Definition type_size (t : type_id) : Z :=
  match t with TUint8 | TInt8 => 1 | TUint16 | TInt16 => 2 | TUint32 | TInt32 => 4 end.
Definition type_eqb (a b : type_id) : bool :=
  match a, b with
  | TUint8, TUint8 | TInt8, TInt8 | TUint16, TUint16 | TInt16, TInt16 | TUint32, TUint32 | TInt32, TInt32 => true
  | _, _ => false
  end.

(* 89 with common.h's kDefaultCacheLineSize, and 93 *)
Definition kAlignment : Z := 64.
Definition kMaxBlocks : Z := 5.

(* 123-129 *)
Record handle := mk_handle { h_index : Z; h_generation : Z; h_type : type_id }.
(* 176-192; a_offsets holds the first reserved_blocks_ entries of
   reserved_blocks_offsets_ *)
Record alloc := mk_alloc {
  a_committed : bool; a_size : Z; a_storage : Z; a_offsets : list Z; a_bytes : Z; a_generation : Z }.
(* 74-80 *)
Definition new_alloc : alloc := mk_alloc false 0 0 [] 0 0.

(* common.h 136-146 with Integer = std::size_t *)
Definition RoundUp64 (modulus i : Z) : Z :=
  let u := wrapU 64 (wrapU 64 (i + modulus) - 1) in wrapU 64 (u - u mod modulus).

(* 131-152 *)
Definition Reserve (t : type_id) (n : Z) (a : alloc) : option (handle * alloc) :=
  check (negb (a_committed a));
  check (Z.of_nat (length (a_offsets a)) <? kMaxBlocks);
  let bytes := RoundUp64 kAlignment (wrapU 64 (n * type_size t)) in
  let offset := a_bytes a in
  let index := Z.of_nat (length (a_offsets a)) in
  Some (mk_handle (wrapU 8 index) (a_generation a) t,
        mk_alloc (a_committed a) (a_size a) (a_storage a) (a_offsets a ++ [offset])
                 (wrapU 64 (a_bytes a + bytes)) (a_generation a)).

(* 95-106, with DeallocateStorage 170-174 *)
Definition Commit (os : Z -> Z) (a : alloc) : option alloc :=
  check (negb (a_committed a));
  let '(size, storage) :=
    if a_bytes a >? a_size a then
      let size := RoundUpToPowerOfTwo 64 (a_bytes a) in (size, os size)
    else (a_size a, a_storage a) in
  check ((size =? 0) || negb (storage =? 0));
  Some (mk_alloc true size storage (a_offsets a) (a_bytes a) (a_generation a)).

(* 108-115 *)
Definition Decommit (a : alloc) : option alloc :=
  check (a_committed a);
  Some (mk_alloc false (a_size a) (a_storage a) [] 0 (wrapU 64 (a_generation a + 1))).

(* 154-167 *)
Definition GetPointer (t : type_id) (h : handle) (a : alloc) : option Z :=
  check (a_committed a);
  check (h_index h <? Z.of_nat (length (a_offsets a)));
  check (h_generation h =? a_generation a);
  check (type_eqb (h_type h) t);
  let* offset := nth_error (a_offsets a) (Z.to_nat (h_index h)) in
  Some (wrapU 64 (a_storage a + offset)).

(* 82-86 *)
Definition Destroy (a : alloc) : option unit :=
  check (negb (a_committed a));
  check (Z.of_nat (length (a_offsets a)) =? 0);
  Some tt.

(* several reservations one after another *)
Fixpoint reserve_all (reqs : list (type_id * Z)) (a : alloc) : option (list handle * alloc) :=
  match reqs with
  | [] => Some ([], a)
  | (t, n) :: rest =>
      let* (h, a1) := Reserve t n a in
      let* (hs, a2) := reserve_all rest a1 in
      Some (h :: hs, a2)
  end.

(* pack.h 53-59 *)
Definition packed_side_requests (p : side_params) : list (type_id * Z) :=
  [(TUint8, sp_l2_width p * sp_l2_depth p); (TInt32, sp_l2_width p)].
(* unpack.h 32-36 *)
Definition packed_result_requests (bp : block_params) : list (type_id * Z) :=
  [(TInt32, bp_l2_rows bp * bp_l2_cols bp)].
(* single_thread_gemm.h 115-120 *)
Definition single_thread_requests (bp : block_params) : list (type_id * Z) :=
  packed_side_requests (GetSideBlockParams Lhs bp) ++ packed_side_requests (GetSideBlockParams Rhs bp) ++
  packed_result_requests bp.
(* multi_thread_gemm.h 681-682: the calling thread *)
Definition master_requests (bp : block_params) : list (type_id * Z) :=
  packed_side_requests (GetSideBlockParams Rhs bp).
(* multi_thread_gemm.h 496-498: one task *)
Definition task_requests (bp : block_params) : list (type_id * Z) :=
  packed_side_requests (GetSideBlockParams Lhs bp) ++ packed_result_requests bp.
