(* GemmContract.v: the inputs for which the GEMM theorems speak, and what the
   result memory must be.  Uses the entry-wise meaning of output pipelines
   (OutputSpec.v) and of products (GemmSpec.v), not the GEMM model. *)
From Verif Require Import Base CommonModel PackModel GemmSpec ComputeModel KernelSpec OutputModel OutputSpec OutputSimdSpec.

(* v is a column (row) vector of at least n entries, entry i being f i *)
Definition col_vector (v : vec) (n : Z) (f : Z -> Z) : Prop :=
  match v with VMap sh _ => sh = VCol | VDup _ _ _ => True end /\ n <= vec_size v /\
  forall i, 0 <= i < n -> entry_of v i 0 = Some (f i).
Definition row_vector (v : vec) (n : Z) (f : Z -> Z) : Prop :=
  match v with VMap sh _ => sh = VRow | VDup _ _ _ => True end /\ n <= vec_size v /\
  forall i, 0 <= i < n -> entry_of v 0 i = Some (f i).

(* A bound on the sizes and offsets under which no int32 can overflow: with
   entries x in [lo, lo + 255] (lo = 0 for uint8, -128 for int8) and offsets o,
   |x + o| is at most Ml (Mr).  For uint8 entries and offsets in [-255, 0],
   Ml = Mr = 255; for int8 entries and offsets in [-127, 128], Ml = Mr = 255. *)
Definition int32_safe (lo kreg depth rows cols : Z) (LO RO : Z -> Z) : Prop :=
  exists Ml Mr, 255 <= Ml /\ 255 <= Mr /\ Ml * Mr * (depth + kreg - 1) <= 2 ^ 31 - 1 /\
    (forall r, 0 <= r < rows -> - Ml <= LO r + lo <= Ml - 255) /\
    (forall c, 0 <= c < cols -> - Mr <= RO c + lo <= Mr - 255).

(* What the vector output code needs beyond the scalar code (nothing if there is
   none): it has code for the pipeline, the offsets are int32, and the entries P
   meet no overflow that it treats differently. *)
Definition vector_safe (o : option simd) (m : ovf) (p : list stage) (rows cols : Z) (LO RO : Z -> Z) (P : Z -> Z -> Z) : Prop :=
  match o with
  | None => True
  | Some T => pipe_ty T p <> None /\ (forall r, 0 <= r < rows -> i32 (LO r)) /\ (forall c, 0 <= c < cols -> i32 (RO c)) /\
      forall r c, 0 <= r < rows -> 0 <= c < cols -> pipe_safe T m p r c (wrapS 32 (P r c))
  end.

(* Both sides of the kernel take the same input type; lhs (memory lmem, view
   lhs) holds L, rhs holds R, entries of that type; the views have matching
   positive sizes, and applying the pipeline p to entry (r,c) of the offset
   product (modulo 2^32) gives out r c. *)
Record gemm_problem (m : ovf) (K : kernel) (lmem : mem) (lhs : matrix_map) (rmem : mem) (rhs : matrix_map)
    (result : matrix_map) (lhs_offset rhs_offset : vec) (p : list stage)
    (L R : Z -> Z -> Z) (LO RO : Z -> Z) (out : Z -> Z -> Z) : Prop := {
  gp_rows : mm_rows lhs = mm_rows result;
  gp_cols : mm_cols rhs = mm_cols result;
  gp_depth : mm_cols lhs = mm_rows rhs;
  gp_pos : 0 < mm_rows result /\ 0 < mm_cols result /\ 0 < mm_cols lhs;
  gp_lhs : holds_lhs (kf_lhs (k_fmt K)) lmem lhs L;
  gp_rhs : holds_rhs (kf_rhs (k_fmt K)) rmem rhs R;
  gp_lo : col_vector lhs_offset (mm_rows result) LO;
  gp_ro : row_vector rhs_offset (mm_cols result) RO;
  gp_arith : m = Wrap \/ int32_safe (in_min (kf_lhs (k_fmt K))) (kf_reg (k_fmt K)) (mm_cols lhs) (mm_rows result) (mm_cols result) LO RO;
  gp_out : forall r c, 0 <= r < mm_rows result -> 0 <= c < mm_cols result ->
     pipe_at m p r c (wrapS 32 (offset_product L R LO RO (mm_cols lhs) r c)) = Some (out r c);
  gp_vec : vector_safe (k_out K) m p (mm_rows result) (mm_cols result) LO RO (offset_product L R LO RO (mm_cols lhs));
  gp_input : in_min (kf_rhs (k_fmt K)) = in_min (kf_lhs (k_fmt K)) }.

(* cache sizes are ints and the float product converts to int *)
Definition tuning_ok (t : tuning) : Prop :=
  - 2 ^ 31 <= t_l2_bytes t < 2 ^ 31 /\
  forall x, - 2 ^ 31 <= x < 2 ^ 31 -> rf_mul (t_factor t) x <> None.

(* the thread settings do not break HowManyThreads or the row split *)
Definition threads_ok (k : kernel_fmt) (hw max_num_threads rows : Z) : Prop :=
  max_num_threads = 1 \/
  (let max_count := if max_num_threads =? 0 then hw else max_num_threads in
   0 < max_count /\ rows + kRows k + 16 <= 2 ^ 31 - 1 /\
   rows * Z.min max_count (rows / 16 + 1) <= 2 ^ 31 - 1).

(* the kernel meets its contract; cache and thread settings are usable *)
Definition gemm_config_ok (m : ovf) (K : kernel) (t : tuning) (hw mnt : Z) (result : matrix_map) : Prop :=
  kernel_fmt_ok (k_fmt K) /\ kernel_usable m K /\ packs_correct m K /\ tuning_ok t /\
  threads_ok (k_fmt K) hw mnt (Z.max (mm_rows result) (mm_cols result)).

(* only the entries of the view are allocated in this memory *)
Definition only_view (mm : mem) (M : matrix_map) : Prop :=
  forall a, mm a <> None -> exists r c, 0 <= r < mm_rows M /\ 0 <= c < mm_cols M /\ a = entry_addr M r c.
(* only the entries of the vector are allocated in its memory *)
Definition only_vec (v : vec) : Prop :=
  match v with
  | VMap _ u => forall a, vm_mem u a <> None -> vm_base u <= a < vm_base u + vm_size u
  | VDup _ _ _ => True
  end.
Definition only_stage (s : stage) : Prop :=
  match s with
  | SQuantizeDownPC sh off mult _ => only_vec (VMap sh off) /\ only_vec (VMap sh mult)
  | SScaleExpPC sh mult ex _ => only_vec (VMap sh mult) /\ only_vec (VMap sh ex)
  | SBias v => only_vec v
  | _ => True
  end.

(* ------------------------------------------------------------------ *)
(* Executions of concurrent tasks.  Each task is a list of stores; the tasks
   of a phase may interleave arbitrarily; phases follow each other. *)
Inductive interleaving {A} : list (list A) -> list A -> Prop :=
  | il_done : forall ls, (forall l, In l ls -> l = []) -> interleaving ls []
  | il_step : forall ls1 a l ls2 tr,
      interleaving (ls1 ++ l :: ls2) tr -> interleaving (ls1 ++ (a :: l) :: ls2) (a :: tr).
Inductive execution {A} : list (list (list A)) -> list A -> Prop :=
  | ex_nil : execution [] []
  | ex_cons : forall ph phs t1 t2, interleaving ph t1 -> execution phs t2 -> execution (ph :: phs) (t1 ++ t2).

(* the entries of the view are distinct allocated cells of the memory *)
Definition valid_view (mm : mem) (M : matrix_map) : Prop :=
  (forall r c, 0 <= r < mm_rows M -> 0 <= c < mm_cols M -> exists v, mm (entry_addr M r c) = Some v) /\
  (match mm_order M with ColMajor => mm_rows M | RowMajor => mm_cols M end <= mm_stride M).

(* [after] is [before] with entry (r,c) of the view set to out r c *)
Definition stored (before after : mem) (M : matrix_map) (out : Z -> Z -> Z) : Prop :=
  (forall r c, 0 <= r < mm_rows M -> 0 <= c < mm_cols M -> after (entry_addr M r c) = Some (out r c)) /\
  (forall a, (forall r c, 0 <= r < mm_rows M -> 0 <= c < mm_cols M -> a <> entry_addr M r c) -> after a = before a).

(* every entry of the view is stored exactly once, with value out r c, and
   nothing else is stored *)
Definition stores_once (M : matrix_map) (out : Z -> Z -> Z) (trace : list (Z * Z)) : Prop :=
  exists visits : list (Z * Z),
    trace = map (fun q => (entry_addr M (fst q) (snd q), out (fst q) (snd q))) visits /\ NoDup visits /\
    forall r c, In (r, c) visits <-> 0 <= r < mm_rows M /\ 0 <= c < mm_cols M.
