(* Props_Meta.v: property theorems C38, C39, C47, C48, C49, about the Meta GEMM
   and the fast path it gives to EightBitIntGemm (MetaModel.v).  Partitions,
   entries of the product and the stores are described in MetaSpec.v; u8_result,
   f32_result and writes, in EightBitSpec.v, are those of the general path. *)
From Coq Require Import SpecFloat.
From Verif Require Import Base FixedPointSpec OutputModel GemmModel GemmContract EightBitModel EightBitSpec EightBitProofs4 MetaModel MetaSpec
  MetaProofs3 MetaRefuted MetaExample.

(* C38: the task rectangles partition the result; there are at least one and at
   most max(1, threads) of them; if several, each has 4 rows or 4 columns *)
Theorem C38_PrepareTasks_partition :
  forall mode max_tasks m n k l, 1 <= m -> 1 <= n -> PrepareTasks mode max_tasks m n k = Some l ->
  rect_partition l m n /\ 1 <= Z.of_nat (length l) <= Z.max 1 max_tasks /\
  (Z.of_nat (length l) <> 1 -> forall r, In r l -> (4 <= tr_m r /\ tr_n r = n) \/ (4 <= tr_n r /\ tr_m r = m)).
Proof. exact PrepareTasks_partition. Qed.
Print Assumptions C38_PrepareTasks_partition.
Theorem C38_PrepareTasks_defined :
  forall mode max_tasks m n k, 1 <= m -> 1 <= n -> 0 <= k -> mode = Wrap \/ m * n <= 2 ^ 31 - 1 /\ m * n * k <= 2 ^ 31 - 1 ->
  exists tasks, real_tasks mode max_tasks m n k = Some tasks.
Proof. exact real_tasks_defined. Qed.
Print Assumptions C38_PrepareTasks_defined.
(* the size test multiplies m * n * k in int *)
Theorem C38_PrepareTasks_overflow_refuted :
  exists m n k, 1 <= m /\ 1 <= n /\ 1 <= k <= 2048 /\ m * n <= 2 ^ 31 - 1 /\ forall max_tasks, PrepareTasks Trap max_tasks m n k = None.
Proof. exact PrepareTasks_refuted. Qed.
Print Assumptions C38_PrepareTasks_overflow_refuted.
(* the chunks of columns of the legacy GEMM partition them *)
Theorem C38_cache_chunks_partition :
  forall mode n k, 1 <= n -> 1 <= k -> n * k <= 2 ^ 31 - 1 -> 4 * k <= 2 ^ 31 - 1 ->
  exists l, cache_chunks mode n k = Some l /\ chunk_partition l n /\
    (forall c, In c l -> snd c * k <= 262144 \/ k <= 65536 /\ snd c <= 2 * (4 * (65536 / k)) - 1 \/ 65536 < k /\ snd c = 1).
Proof. exact cache_chunks_ok. Qed.
Print Assumptions C38_cache_chunks_partition.
(* and so do those of the cache friendly executors *)
Theorem C38_split_dim_partition :
  forall dim tasks, 1 <= tasks <= dim -> chunk_partition (split_dim dim tasks) dim.
Proof. exact split_dim_partition. Qed.
Print Assumptions C38_split_dim_partition.
(* concurrent tasks have separate parts of the scratch buffer *)
Theorem C38_scratch_areas_disjoint :
  forall A (estimate : gemm_params A -> Z) mode hw max_num_threads (p : gemm_params A) l, 1 <= p_m p -> 1 <= p_n p ->
  (forall q, 0 <= p_m q -> 0 <= p_n q -> p_left q = p_left p -> p_right q = p_right p -> 0 <= estimate q) ->
  PrepareGemmTasks mode estimate hw max_num_threads p = Some (Some l) ->
  forall i j q r, (i < j)%nat -> nth_error l i = Some q -> nth_error l j = Some r ->
    p_scratch p <= p_scratch q /\ p_scratch q + estimate q <= p_scratch r.
Proof. exact @gemm_task_areas. Qed.
Print Assumptions C38_scratch_areas_disjoint.
(* MultiThreadGemm: in every interleaving of its tasks every entry of the product
   is stored exactly once; no task leaves its part of the scratch buffer *)
Theorem C38_multi_thread_pack_rhs :
  forall A (p : gemm_params A) mode m n hw max_num_threads f g sc, kernel_size m n -> params_ok p f g -> 1 <= p_m p -> 1 <= p_n p ->
  mode = Wrap \/ p_m p * p_n p * p_k p <= 2 ^ 31 - 1 ->
  alloc sc (p_scratch p) (p_scratch p + Z.max 1 (ResolveMaxThreads hw max_num_threads) * PackRHS_EstimateScratchSize p m n 8) ->
  exists logs, MultiThreadGemm mode PackRHS (fun q => PackRHS_EstimateScratchSize q m n 8) m n 8 hw max_num_threads p sc = Some [logs] /\
    1 <= Z.of_nat (length logs) <= Z.max 1 (ResolveMaxThreads hw max_num_threads) /\
    all_stores [logs] (p_m p) (p_n p) (entry_address p) (entry_value p f g).
Proof. exact @MultiThreadGemm_RHS. Qed.
Print Assumptions C38_multi_thread_pack_rhs.
Theorem C38_multi_thread_pack_lhs :
  forall A (p : gemm_params A) mode m n hw max_num_threads f g sc, kernel_size m n -> params_ok p f g -> 1 <= p_m p -> 1 <= p_n p ->
  mode = Wrap \/ p_m p * p_n p * p_k p <= 2 ^ 31 - 1 ->
  alloc sc (p_scratch p) (p_scratch p + Z.max 1 (ResolveMaxThreads hw max_num_threads) * PackLHS_EstimateScratchSize p m n 8) ->
  exists logs, MultiThreadGemm mode PackLHS (fun q => PackLHS_EstimateScratchSize q m n 8) m n 8 hw max_num_threads p sc = Some [logs] /\
    1 <= Z.of_nat (length logs) <= Z.max 1 (ResolveMaxThreads hw max_num_threads) /\
    all_stores [logs] (p_m p) (p_n p) (entry_address p) (entry_value p f g).
Proof. exact @MultiThreadGemm_LHS. Qed.
Print Assumptions C38_multi_thread_pack_lhs.
Example C38_example :
  PrepareTasks Trap 4 30 1000 7 = Some [mk_rect 0 30 0 250; mk_rect 0 30 250 250; mk_rect 0 30 500 250; mk_rect 0 30 750 250] /\
  PrepareTasks Trap 8 50 9 100 = Some [mk_rect 0 25 0 9; mk_rect 25 25 0 9] /\
  cache_chunks Trap 1000 1000 = Some [(0, 260); (260, 260); (520, 480)] /\ split_dim 10 3 = [(0, 3); (3, 3); (6, 4)] /\
  kernel_size 2 4 /\ params_ok odd_params (fun _ _ => 0) (fun _ _ => 0) /\
  match PrepareGemmTasks Trap (fun q => PackRHS_EstimateScratchSize q 2 4 8) 4 0 odd_params with
  | Some (Some l) => map (fun q => (p_n q, p_scratch q)) l = [(216, 0); (216, 458752); (216, 917504); (219, 1376256)] | _ => False end.
Proof.
  do 5 (split; [vm_compute; reflexivity|]). split; [exact odd_params_ok|]. vm_compute. reflexivity.
Qed.

(* C39: on the layouts the fast path accepts, a is contiguous row major, b
   contiguous column major and c one of the two, if and only if single rows and
   columns are contiguous, which it does not test *)
Theorem C39_layout :
  forall x, CanHandleMetaFastpath x = true -> 1 <= x_m x -> 1 <= x_n x -> (vectors_contiguous x <-> fast_layout x).
Proof. exact fast_layout_iff. Qed.
Print Assumptions C39_layout.
(* then the fast path leaves the result buffer as the general path does *)
Theorem C39_fast_equals_general :
  forall e (settings : Z -> Prop) M x off mult shift mnt mnt' hw sc scs addr junk s, env_ok e -> holds_bytes M ->
  call_ok e settings M (CallU8 x off mult shift) -> settings mnt ->
  CanHandleMetaFastpath x = true -> vectors_contiguous x -> fast_sizes (e_mode e) (ResolveMaxThreads hw mnt') (x_aoff x) (x_boff x) off x -> bytes_ok s ->
  1 <= shift -> (forall r c, 0 <= r < x_m x -> 0 <= c < x_n x -> wrapS 32 ((product x M r c + off) * mult) + 2 ^ (shift - 1) <= 2 ^ 31 - 1) ->
  exists general s' fast,
    EightBitIntGemm_u8 e mnt sc scs x (bytes M (fst (x_a x))) (bytes M (fst (x_b x))) off mult shift = Some general /\
    MetaGemmFastpath (e_mode e) (q8_kind off mult shift) hw mnt' addr junk s x (bytes M (fst (x_a x))) (bytes M (fst (x_b x))) = Some (s', fast) /\
    (exists t, execution general t) /\ (exists t, execution fast t) /\
    forall t t', execution general t -> execution fast t' ->
      exists after after', perform t (bytes M (fst (x_c x))) = Some after /\ store_all t' (bytes M (fst (x_c x))) = Some after' /\ forall i, after i = after' i.
Proof. exact fast_equals_general. Qed.
Print Assumptions C39_fast_equals_general.
(* a is one row of a column major matrix: the wrong bytes are multiplied *)
Theorem C39_operand_vector_refuted :
  exists x M off mult shift ph,
  CanHandleMetaFastpath x = true /\ fast_sizes Trap 1 (x_aoff x) (x_boff x) off x /\ fast_buffers x M (bytes M 1) /\
  fast_phases Trap off mult shift 1 x M = Some ph /\
  forall trace after, execution ph trace -> store_all trace (bytes M 1) = Some after -> after (c_pos x 0 0) <> Some (u8_result x M off mult shift 0 0).
Proof. exact vectors_refuted. Qed.
Print Assumptions C39_operand_vector_refuted.
(* c is one row of a column major matrix: a byte outside the result is
   overwritten *)
Theorem C39_result_vector_refuted :
  exists x M off mult shift ph i,
  CanHandleMetaFastpath x = true /\ fast_sizes Trap 1 (x_aoff x) (x_boff x) off x /\ fast_buffers x M (bytes M 1) /\
  fast_phases Trap off mult shift 1 x M = Some ph /\ (forall r c, 0 <= r < x_m x -> 0 <= c < x_n x -> i <> c_pos x r c) /\
  forall trace, execution ph trace -> In i (map fst trace).
Proof. exact result_vector_refuted. Qed.
Print Assumptions C39_result_vector_refuted.
(* near 2^31 the added rounding constant wraps: 0 instead of 255 *)
Theorem C39_rounding_refuted :
  exists x M off mult shift ph,
  CanHandleMetaFastpath x = true /\ vectors_contiguous x /\ fast_sizes Trap 1 (x_aoff x) (x_boff x) off x /\ fast_buffers x M (bytes M 1) /\
  1 <= shift <= 31 /\ (forall r c, fits 32 ((product x M r c + off) * mult)) /\
  fast_phases Trap off mult shift 1 x M = Some ph /\
  forall trace after, execution ph trace -> store_all trace (bytes M 1) = Some after ->
    after (c_pos x 0 0) = Some 0 /\ u8_result x M off mult shift 0 0 = 255.
Proof. exact rounding_refuted. Qed.
Print Assumptions C39_rounding_refuted.
(* with shift 0, which the general path accepts, 1 << (shift - 1) is undefined *)
Theorem C39_shift_zero_refuted :
  CanHandleMetaFastpath plain_one = true /\ vectors_contiguous plain_one /\ fast_buffers plain_one zeros (bytes zeros 1) /\
  forall mode, fast_phases mode 0 1 0 1 plain_one zeros = None.
Proof. exact shift_zero_refuted. Qed.
Print Assumptions C39_shift_zero_refuted.
Example C39_example : CanHandleMetaFastpath mx_args = true /\ vectors_contiguous mx_args /\
  fast_sizes Trap 2 (x_aoff mx_args) (x_boff mx_args) 3000 mx_args /\ bytes_ok one_thread_buffer /\
  (forall r c, In (r, c) [(0, 0); (1, 0); (0, 1); (1, 1); (0, 2); (1, 2)] ->
     wrapS 32 ((product mx_args mx_mem r c + 3000) * 5) + 2 ^ 10 <= 2 ^ 31 - 1).
Proof.
  split; [reflexivity|]. split; [vm_compute; intuition discriminate|]. split; [vm_compute; intuition discriminate|]. split; [exact empty_ok|].
  intros r c H. repeat (destruct H as [H|H]; [injection H as <- <-; vm_compute; discriminate|]). destruct H.
Qed.

(* C47: the fast path stores u8_result, respectively f32_result, in every entry
   of the result, and nothing else, in every interleaving of its tasks *)
Theorem C47_fast_u8 :
  forall mode x M before off mult shift hw mnt addr junk s, CanHandleMetaFastpath x = true -> vectors_contiguous x ->
  fast_sizes mode (ResolveMaxThreads hw mnt) (x_aoff x) (x_boff x) off x -> fast_buffers x M before -> bytes_ok s ->
  1 <= shift <= 31 ->
  (forall r c, 0 <= r < x_m x -> 0 <= c < x_n x -> wrapS 32 ((product x M r c + off) * mult) + 2 ^ (shift - 1) <= 2 ^ 31 - 1) ->
  exists s' ph, MetaGemmFastpath mode (q8_kind off mult shift) hw mnt addr junk s x (bytes M (fst (x_a x))) (bytes M (fst (x_b x))) = Some (s', ph) /\
    bytes_ok s' /\ (exists trace, execution ph trace) /\
    forall trace, execution ph trace -> exists after, store_all trace before = Some after /\
      writes x (u8_result x M off mult shift) before after.
Proof. exact fast_u8. Qed.
Print Assumptions C47_fast_u8.
Theorem C47_fast_f32 :
  forall mode x M before scale hw mnt addr junk s, CanHandleMetaFastpath x = true -> vectors_contiguous x ->
  fast_sizes mode (ResolveMaxThreads hw mnt) (x_aoff x) (x_boff x) 0 x -> fast_buffers x M before -> bytes_ok s ->
  exists s' ph, MetaGemmFastpath mode (f_kind scale) hw mnt addr junk s x (bytes M (fst (x_a x))) (bytes M (fst (x_b x))) = Some (s', ph) /\
    bytes_ok s' /\ (exists trace, execution ph trace) /\
    forall trace, execution ph trace -> exists after, store_all trace before = Some after /\
      writes x (f32_result x M scale) before after.
Proof. exact fast_f32. Qed.
Print Assumptions C47_fast_f32.
(* the int32 entry point *)
Theorem C47_legacy_i32 :
  forall mode hw mnt sc lhs rhs m n k lo ro result f g, 1 <= m -> 1 <= n -> 8 <= k <= 2048 ->
  m * k <= 2 ^ 31 - 1 -> n * k <= 2 ^ 31 - 1 -> 12 <= k \/ n * k <= 262144 ->
  mode = Wrap \/ m * n * k <= 2 ^ 31 - 1 /\ fits 32 (k * lo) /\ fits 32 (k * ro) /\ fits 32 (k * lo * ro) ->
  rows_in lhs k m k f -> rows_in rhs k n k g -> alloc sc 0 (Z.max 1 (ResolveMaxThreads hw mnt) * 1048576) ->
  exists ph, multi_thread_gemm mode i32_kind hw mnt sc lhs rhs m n k lo ro result = Some ph /\
    all_stores ph m n (fun i j => result + 4 * (i * n + j)) (fun i j => wrapS 32 (sumZ (fun d => (f i d + lo) * (g j d + ro)) 0 k)).
Proof. exact legacy_i32. Qed.
Print Assumptions C47_legacy_i32.
(* the single-threaded executors *)
Theorem C47_pack_rhs :
  forall A (p : gemm_params A) m n f g, kernel_size m n -> params_ok p f g ->
  computes (MetaGemm PackRHS m n 8 p) p (PackRHS_EstimateScratchSize p m n 8) f g.
Proof. exact @pack_rhs_exact. Qed.
Print Assumptions C47_pack_rhs.
Theorem C47_pack_lhs :
  forall A (p : gemm_params A) m n f g, kernel_size m n -> params_ok p f g ->
  computes (MetaGemm PackLHS m n 8 p) p (PackLHS_EstimateScratchSize p m n 8) f g.
Proof. exact @pack_lhs_exact. Qed.
Print Assumptions C47_pack_lhs.
Example C47_example : fast_buffers mx_args mx_mem (bytes mx_mem 2) /\
  fast_phases Trap 3000 5 11 2 mx_args mx_mem = Some [[[(3, 129); (4, 0); (5, 102); (6, 10); (7, 122); (8, 72)]]] /\
  mx_out = [(3, 129); (4, 0); (5, 102); (6, 10); (7, 122); (8, 72)].
Proof. split; [exact mx_buffers|]. split; vm_compute; reflexivity. Qed.

(* C48: EstimateScratchSize suffices for PackRHS and PackLHS (C47_pack_rhs,
   C47_pack_lhs, C38_multi_thread_pack_rhs, C38_multi_thread_pack_lhs); the cache
   friendly executors keep within the cache size they report if the number of
   tasks divides the dimension, or leaves a remainder of 1 *)
Theorem C48_cache_friendly_rhs :
  forall A (p : gemm_params A) cache m n f g tasks, kernel_size m n -> params_ok p f g -> 1 <= p_n p ->
  CalculateCacheFriendlyTasksCount cache (PackedStride m 8 (p_left p)) (PackedStride n 8 (p_right p)) (p_n p) n = Some tasks -> p_n p mod tasks <= 1 ->
  computes (MetaGemm (PackRHSCacheFriendly cache) m n 8 p) p cache f g.
Proof. exact @cache_friendly_rhs. Qed.
Print Assumptions C48_cache_friendly_rhs.
Theorem C48_cache_friendly_lhs :
  forall A (p : gemm_params A) cache m n f g tasks, kernel_size m n -> params_ok p f g -> 1 <= p_m p ->
  CalculateCacheFriendlyTasksCount cache (PackedStride n 8 (p_right p)) (PackedStride m 8 (p_left p)) (p_m p) m = Some tasks -> p_m p mod tasks <= 1 ->
  computes (MetaGemm (PackLHSCacheFriendly cache) m n 8 p) p cache f g.
Proof. exact @cache_friendly_lhs. Qed.
Print Assumptions C48_cache_friendly_lhs.
(* otherwise the last task may need more (867 columns, depth 2048, the default
   cache size) *)
Theorem C48_cache_friendly_refuted :
  exists (p : gemm_params Z) f g, params_ok p f g /\ 1 <= p_m p /\ 1 <= p_n p /\
  (forall sc log, (forall a, p_scratch p + 262144 <= a -> sc a = None) -> MetaGemm (PackRHSCacheFriendly 262144) 2 4 8 p (sc, log) = None).
Proof. exact cache_refuted. Qed.
Print Assumptions C48_cache_friendly_refuted.
(* the legacy entry points reserve 1 MB per thread whatever the size: 2 x 50000
   with depth 9 runs out of it *)
Theorem C48_legacy_scratch_refuted :
  CanHandleMetaFastpath long_args = true /\ vectors_contiguous long_args /\ fast_buffers long_args zeros (bytes zeros 1) /\
  x_m long_args * x_n long_args * x_k long_args <= 2 ^ 31 - 1 /\ forall mode, fast_phases mode 0 1 1 1 long_args zeros = None.
Proof. exact long_refuted. Qed.
Print Assumptions C48_legacy_scratch_refuted.
(* with 2048 threads the size of the buffer overflows int *)
Theorem C48_threads_refuted :
  CanHandleMetaFastpath plain_one = true /\ vectors_contiguous plain_one /\ fast_buffers plain_one zeros (bytes zeros 1) /\
  forall mode, fast_phases mode 0 1 1 2048 plain_one zeros = None.
Proof. exact threads_refuted. Qed.
Print Assumptions C48_threads_refuted.
Example C48_example : kernel_size 2 4 /\ params_ok odd_params (fun _ _ => 0) (fun _ _ => 0) /\
  CalculateCacheFriendlyTasksCount 1048576 (PackedStride 2 8 (p_left odd_params)) (PackedStride 4 8 (p_right odd_params)) (p_n odd_params) 4 = Some 2 /\
  p_n odd_params mod 2 = 1.
Proof. split; [reflexivity|]. split; [exact odd_params_ok|]. split; vm_compute; reflexivity. Qed.

(* C49: packing copies every byte to its place, pads with zeros, and the sums of
   the lanes, accumulated in 16 bits, are exact up to 2056 bytes per lane (the
   fast path guarantees 2048) *)
Theorem C49_packed_sums :
  forall lanes s input src dst sc f, 1 <= lanes <= 8 -> 1 <= st_count s <= 2056 ->
  (forall l d, 0 <= l < lanes -> 0 <= d < st_count s -> input (src + l * st_stride s + d) = Some (f l d) /\ 0 <= f l d <= 255) ->
  alloc sc dst (dst + PackedStride lanes 8 s) ->
  exists sc', StreamPack lanes (st_count s mod 8) s input src dst sc = Some sc' /\ frame sc sc' dst (dst + PackedStride lanes 8 s) /\
    (forall l d, 0 <= l < lanes -> 0 <= d < st_count s -> sc' (dst + 8 * (lanes * (d / 8) + l) + d mod 8) = Some (f l d)) /\
    (forall l d, 0 <= l < lanes -> st_count s <= d < 8 * ((st_count s + 7) / 8) -> sc' (dst + 8 * (lanes * (d / 8) + l) + d mod 8) = Some 0) /\
    (forall l, 0 <= l < lanes -> rd32 sc' (dst + 8 * lanes * ((st_count s + 7) / 8) + 4 * l) = Some (wrapS 32 (sumZ (f l) 0 (st_count s) * st_mult s + st_add s))).
Proof. exact pack_sums. Qed.
Print Assumptions C49_packed_sums.
(* 2057 bytes of 255: the sum is short by 2^16 *)
Theorem C49_longer_streams_refuted :
  match StreamPack 1 1 long_stream all255 0 0 (empty_scratch 2112) with
  | Some sc' => rd32 sc' (8 * 258) = Some (2057 * 255 - 65536) | None => False end.
Proof. exact sums_refuted. Qed.
Print Assumptions C49_longer_streams_refuted.
Example C49_example :
  match StreamPack 3 2 (mk_stream 10 12 5 100) (bytes mx_mem 0) 4 0 (empty_scratch 96) with
  | Some sc' => map (rd32 sc') [48; 52; 56] = map (fun l => Some (sumZ (fun d => byte_at (bytes mx_mem 0) (4 + 12 * l + d)) 0 10 * 5 + 100)) [0; 1; 2]
  | None => False end.
Proof. vm_compute. reflexivity. Qed.
