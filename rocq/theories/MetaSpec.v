(* MetaSpec.v: what the Meta GEMM is supposed to do: partitions of rectangles,
   the entries of the product, and the stores that produce them.  Of the model
   only the records of arguments are used. *)
From Verif Require Import Base FixedPointSpec GemmContract EightBitModel EightBitSpec MetaModel.

(* the task rectangles lie in the m x n result, none is empty, and every entry of
   the result belongs to exactly one of them *)
Definition in_rect (r : task_rect) (i j : Z) : Prop :=
  tr_m_offset r <= i < tr_m_offset r + tr_m r /\ tr_n_offset r <= j < tr_n_offset r + tr_n r.
Definition rect_partition (l : list task_rect) (m n : Z) : Prop :=
  (forall r, In r l -> 0 <= tr_m_offset r /\ 0 < tr_m r /\ tr_m_offset r + tr_m r <= m /\
                       0 <= tr_n_offset r /\ 0 < tr_n r /\ tr_n_offset r + tr_n r <= n) /\
  (forall i j, 0 <= i < m -> 0 <= j < n -> exists r, In r l /\ in_rect r i j) /\
  (forall t u r s i j, nth_error l t = Some r -> nth_error l u = Some s -> in_rect r i j -> in_rect s i j -> t = u).
(* the same for intervals (start, length) of [0, n) *)
Definition in_chunk (c : Z * Z) (j : Z) : Prop := fst c <= j < fst c + snd c.
Definition chunk_partition (l : list (Z * Z)) (n : Z) : Prop :=
  (forall c, In c l -> 0 <= fst c /\ 0 < snd c /\ fst c + snd c <= n) /\
  (forall j, 0 <= j < n -> exists c, In c l /\ in_chunk c j) /\
  (forall t u c d j, nth_error l t = Some c -> nth_error l u = Some d -> in_chunk c j -> in_chunk d j -> t = u).

(* [log] stores v i j at addr i j, once for every (i, j) with P i j, and nothing
   else *)
Definition log_over {A} (P : Z -> Z -> Prop) (addr : Z -> Z -> Z) (v : Z -> Z -> A) (log : list (Z * A)) : Prop :=
  exists visits, log = map (fun q => (addr (fst q) (snd q), v (fst q) (snd q))) visits /\ NoDup visits /\
    forall i j, In (i, j) visits <-> P i j.
Definition rect (m n i j : Z) : Prop := 0 <= i < m /\ 0 <= j < n.

(* m rows of k bytes, [stride] apart, with contents f *)
Definition rows_in (s : source) (stride m k : Z) (f : Z -> Z -> Z) : Prop :=
  forall i d, 0 <= i < m -> 0 <= d < k -> s_mem s (s_base s + i * stride + d) = Some (f i d) /\ 0 <= f i d <= 255.
(* the int32 sum of entry (i, j): the product of row i of f and row j of g, and
   the affine terms of the two streams *)
Definition stream_total (left right : stream) (k : Z) (f g : Z -> Z -> Z) (i j : Z) : Z :=
  sumZ (fun d => f i d * g j d) 0 k + (sumZ (f i) 0 k * st_mult left + st_add left)
  + (sumZ (g j) 0 k * st_mult right + st_add right).
Definition entry_value {A} (p : gemm_params A) (f g : Z -> Z -> Z) (i j : Z) : A :=
  p_fin p (wrapS 32 (stream_total (p_left p) (p_right p) (p_k p) f g i j)).
Definition entry_address {A} (p : gemm_params A) (i j : Z) : Z := p_result p + i * p_ostride p + j * p_esz p.

(* cells [lo, hi) exist *)
Definition alloc (sc : mem) (lo hi : Z) : Prop := forall a, lo <= a < hi -> sc a <> None.
(* only cells in [lo, hi) have changed, and no cell has disappeared *)
Definition frame (sc sc' : mem) (lo hi : Z) : Prop :=
  (forall a, ~ (lo <= a < hi) -> sc' a = sc a) /\ (forall a, sc a <> None -> sc' a <> None).

(* the operands of p hold f and g; its depth is positive and small enough for
   the 16-bit accumulators of the packing code *)
Record params_ok {A} (p : gemm_params A) (f g : Z -> Z -> Z) : Prop := {
  po_m : 0 <= p_m p; po_n : 0 <= p_n p; po_k : 1 <= p_k p <= 2056;
  po_lcount : st_count (p_left p) = p_k p; po_rcount : st_count (p_right p) = p_k p; po_count : p_count p = p_k p;
  po_lhs : rows_in (p_lhs p) (st_stride (p_left p)) (p_m p) (p_k p) f;
  po_rhs : rows_in (p_rhs p) (st_stride (p_right p)) (p_n p) (p_k p) g }.
(* kernel sizes for which every kernel and packing instance exists *)
Definition kernel_size (m n : Z) : Prop := kernel_exists m n = true.

(* run, given [need] bytes of scratch memory at p_scratch p, performs exactly the
   stores of p's product and changes nothing outside those bytes *)
Definition computes {A} (run : state A -> option (state A)) (p : gemm_params A) (need : Z) (f g : Z -> Z -> Z) : Prop :=
  forall sc log, alloc sc (p_scratch p) (p_scratch p + need) ->
  exists sc' t, run (sc, log) = Some (sc', log ++ t) /\ frame sc sc' (p_scratch p) (p_scratch p + need) /\
    log_over (rect (p_m p) (p_n p)) (entry_address p) (entry_value p f g) t.
(* in every execution of ph, an m x n result is stored entry by entry, each once *)
Definition all_stores {A} (ph : phases A) (m n : Z) (addr : Z -> Z -> Z) (v : Z -> Z -> A) : Prop :=
  (exists trace, execution ph trace) /\ forall trace, execution ph trace -> log_over (rect m n) addr v trace.

(* ------------------------------------------------------------------ *)
(* The fast path of EightBitIntGemm. *)
(* performing stores on a buffer; None: a store outside it *)
Fixpoint store_all {V} (log : list (Z * V)) (b : Z -> option V) : option (Z -> option V) :=
  match log with
  | [] => Some b
  | (a, v) :: t => match b a with None => None | Some _ => store_all t (fun i => if i =? a then Some v else b i) end
  end.
(* An operand or result accepted because it is a single row or column is
   contiguous.  The fast path requires this but does not check it. *)
Definition vectors_contiguous (x : args) : Prop :=
  (x_m x = 1 -> x_ta x = true \/ x_lda x = 1) /\ (x_n x = 1 -> x_tb x = false \/ x_ldb x = 1) /\
  (x_m x = 1 -> x_tc x = true \/ x_ldc x = 1 \/ x_n x = 1) /\ (x_n x = 1 -> x_tc x = false \/ x_ldc x = 1 \/ x_m x = 1).
(* the layout the fast path works with: A row major, B column major, C row major
   or column major, all without gaps *)
Definition fast_layout (x : args) : Prop :=
  (forall r d, 0 <= r < x_m x -> 0 <= d < x_k x -> a_pos x r d = snd (x_a x) + r * x_k x + d) /\
  (forall d c, 0 <= d < x_k x -> 0 <= c < x_n x -> b_pos x d c = snd (x_b x) + c * x_k x + d) /\
  ((forall r c, 0 <= r < x_m x -> 0 <= c < x_n x -> c_pos x r c = snd (x_c x) + r * x_n x + c) \/
   (forall r c, 0 <= r < x_m x -> 0 <= c < x_n x -> c_pos x r c = snd (x_c x) + c * x_m x + r)).
(* sizes within which the fast path's int arithmetic and its scratch buffer of
   1 MB per thread suffice *)
Definition fast_sizes (mode : ovf) (threads off_a off_b add : Z) (x : args) : Prop :=
  1 <= x_m x /\ 1 <= x_n x /\ 1 <= threads <= 2047 /\
  x_m x * x_k x <= 2 ^ 31 - 1 /\ x_n x * x_k x <= 2 ^ 31 - 1 /\
  (12 <= x_k x \/ x_m x * x_k x <= 262144 /\ x_n x * x_k x <= 262144) /\
  (mode = Wrap \/
   x_m x * x_n x * x_k x <= 2 ^ 31 - 1 /\ fits 32 (x_k x * off_a) /\ fits 32 (x_k x * off_b) /\
   fits 32 (x_k x * off_a * off_b) /\ fits 32 (add + x_k x * off_a * off_b)).
(* the operands are there and contain bytes; the result is there *)
Definition fast_buffers {V} (x : args) (M : memories) (before : Z -> option V) : Prop :=
  (forall r d, 0 <= r < x_m x -> 0 <= d < x_k x ->
     exists v, bytes M (fst (x_a x)) (a_pos x r d) = Some v /\ 0 <= v <= 255) /\
  (forall d c, 0 <= d < x_k x -> 0 <= c < x_n x ->
     exists v, bytes M (fst (x_b x)) (b_pos x d c) = Some v /\ 0 <= v <= 255) /\
  (forall r c, 0 <= r < x_m x -> 0 <= c < x_n x -> before (c_pos x r c) <> None).
(* the global scratch buffer is as large as it says *)
Definition bytes_ok (s : byte_scratch) : Prop := 0 <= bs_size s /\ alloc (bs_mem s) 0 (bs_size s).
