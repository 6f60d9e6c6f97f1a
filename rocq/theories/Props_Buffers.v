(* Props_Buffers.v: property theorems C70 (the buffers of a GEMM, from its size) *)
From Verif Require Import Base CommonModel PackModel GemmModel BlockIntModel AllocatorModel AllocatorSpec AllocatorProofs Props_Common BlockIntRefuted BufferProofs.

(* C70: within these bounds on the size of the problem the buffers of the
   single-threaded driver, the multi-threaded caller and each task, whose sizes are
   products computed in int, lie in separate places inside the storage.  With an
   L2 factor below 1 the left operand is blocked and only single rows of cells
   count; with a factor of exactly 1 (x86) the whole left operand does. *)
Theorem C70_gemm_buffers : forall k rows cols depth num_threads t x reqs_of stale g a os,
  kernel_fmt_ok k -> 0 < rows -> 0 < cols -> 0 < depth -> 0 < num_threads -> 0 <= t_l2_bytes t ->
  rf_mul (t_factor t) (Z.quot (t_l2_bytes t) (RoundUp (kf_reg k) depth)) = Some x ->
  x <= Z.quot (t_l2_bytes t) (RoundUp (kf_reg k) depth) ->
  rows + 2 * kRows k < 2 ^ 31 -> cols + kCols k < 2 ^ 31 ->
  kCols k * (depth + kf_reg k) + t_l2_bytes t < 2 ^ 31 ->
  (if rf_is_one (t_factor t)
   then (rows + 2 * kRows k) * (depth + kf_reg k) < 2 ^ 31 /\ (rows + 2 * kRows k) * (cols + kCols k) < 2 ^ 31
   else kRows k * (depth + kf_reg k) + t_l2_bytes t < 2 ^ 31 /\ kRows k * (cols + kCols k) + t_l2_bytes t < 2 ^ 31) ->
  In reqs_of [single_thread_requests; master_requests; task_requests] ->
  history [] stale g a -> a_committed a = false -> os_sound os -> os_never_fails os (2 ^ 63) ->
  exists bp hs a1 a2 addr, BlockParams_Init k rows cols depth num_threads t = Some bp /\
    reserve_all (requests_int (reqs_of bp)) a = Some (hs, a1) /\ Commit os a1 = Some a2 /\ length hs = length (reqs_of bp) /\
    laid_out a2 (map (fun x => (fst x, fst (snd x), snd (snd x))) (combine hs (reqs_of bp))) addr.
Proof. exact sized_buffers. Qed.
Print Assumptions C70_gemm_buffers.
(* the bounds are met by 10^6 x 10^5 times 10^5 x 10^6 on ARM and by 20000 x 20000
   matrices on x86; the allocator may have been used before *)
Example C70_example :
  kernel_fmt_ok fmt_12x4 /\
  rf_mul (t_factor arm_tuning) (Z.quot (t_l2_bytes arm_tuning) (RoundUp 16 100000)) = Some 2 /\
  Z.quot (t_l2_bytes arm_tuning) (RoundUp 16 100000) = 3 /\
  1000000 + 2 * kRows fmt_12x4 < 2 ^ 31 /\ kCols fmt_12x4 * (100000 + 16) + t_l2_bytes arm_tuning < 2 ^ 31 /\
  rf_is_one (t_factor arm_tuning) = false /\
  kRows fmt_12x4 * (100000 + 16) + t_l2_bytes arm_tuning < 2 ^ 31 /\ kRows fmt_12x4 * (1000000 + kCols fmt_12x4) + t_l2_bytes arm_tuning < 2 ^ 31 /\
  rf_is_one (t_factor x86_tuning) = true /\
  (20000 + 2 * kRows fmt_12x4) * (20000 + 16) < 2 ^ 31 /\ (20000 + 2 * kRows fmt_12x4) * (20000 + kCols fmt_12x4) < 2 ^ 31 /\
  kCols fmt_12x4 * (20000 + 16) + t_l2_bytes x86_tuning < 2 ^ 31 /\
  history [] [first_handle 0] 1 (idle 1) /\ a_committed (idle 1) = false /\
  option_map (fun bp => map snd (requests_int (single_thread_requests bp))) (BlockParams_Init fmt_12x4 20000 20000 20000 1 x86_tuning)
    = Some [20004 * 20000; 20004; 212 * 20000; 212; 20004 * 212].
Proof.
  split; [exact (proj1 C16_example)|]. split; [reflexivity|]. split; [reflexivity|].
  do 9 (split; [vm_compute; reflexivity|]). split; [exact first_round|]. split; [reflexivity|]. vm_compute. reflexivity.
Qed.

(* A finding: on x86-64 with the default cache sizes a left operand of 50000 x 50000
   entries makes l2_width * l2_depth overflow.  Wrapped around and converted to
   size_t it is close to 2^64, RoundUpToPowerOfTwo of the total is 0, and Commit
   accepts a storage of 0 bytes for all five buffers. *)
Theorem C70_x86_refuted : exists rows cols depth bp,
  0 < rows <= 50000 /\ 0 < cols <= 4 /\ 0 < depth <= 50000 /\
  BlockParams_Init_int Trap fmt_12x4 rows cols depth 1 x86_tuning = Some bp /\
  norm Trap 32 (bp_l2_rows bp * bp_l2_depth bp) = None /\
  forall os, exists hs a1 a2, reserve_all (requests_int (single_thread_requests bp)) new_alloc = Some (hs, a1) /\
    Commit os a1 = Some a2 /\ a_size a2 = 0.
Proof. exact x86_buffer_refuted. Qed.
Print Assumptions C70_x86_refuted.

(* C70: the reservations of the drivers are the buffers that the GEMM of C01 - C03
   works in: block by block of the same element type, and with exactly the elements
   that can be accessed there (an access outside is undefined in that model). *)
Definition serves (b : type_id * mem) (request : type_id * Z) : Prop :=
  fst request = fst b /\ forall i, snd b i <> None <-> 0 <= i < snd request.
Lemma serves_local t n junk : serves (t, local_buf n junk) (t, n).
Proof. split; [reflexivity|]. intros i. cbn [snd]. unfold local_buf. destruct ((0 <=? i) && (i <? n)) eqn:E; split; intros H; (lia || congruence). Qed.
Theorem C70_requests_serve_gemm : forall bp sc,
  let lhs := new_packed (GetSideBlockParams Lhs bp) (sc_lhs_data sc) (sc_lhs_sums sc) in
  let rhs := new_packed (GetSideBlockParams Rhs bp) (sc_rhs_data sc) (sc_rhs_sums sc) in
  let result := new_result bp (sc_result sc) in
  Forall2 serves [(TUint8, pk_data lhs); (TInt32, pk_sums lhs); (TUint8, pk_data rhs); (TInt32, pk_sums rhs); (TInt32, result)]
    (single_thread_requests bp) /\
  Forall2 serves [(TUint8, pk_data rhs); (TInt32, pk_sums rhs)] (master_requests bp) /\
  Forall2 serves [(TUint8, pk_data lhs); (TInt32, pk_sums lhs); (TInt32, result)] (task_requests bp).
Proof. intros bp sc. cbn zeta. split; [|split]; repeat (constructor; [exact (serves_local _ _ _)|]); constructor. Qed.
Print Assumptions C70_requests_serve_gemm.
Example C70_serves_example :
  option_map (fun bp => (bp_l2_rows bp, bp_l2_cols bp, new_result bp (fun i => i) 575, new_result bp (fun i => i) 576))
    (BlockParams_Init fmt_12x4 30 14 70 1 x86_tuning) = Some (36, 16, Some 575, None).
Proof. vm_compute. reflexivity. Qed.

(* C70: within the same bounds the positions in the packed blocks (seek_run) and in
   the packed result are computed without overflow, whatever run of the block and
   entry they belong to, and a run of the kernel lies inside the buffer. *)
Theorem C70_positions : forall k rows cols depth num_threads t x bp m,
  kernel_fmt_ok k -> 0 < rows -> 0 < cols -> 0 < depth -> 0 < num_threads -> 0 <= t_l2_bytes t ->
  rf_mul (t_factor t) (Z.quot (t_l2_bytes t) (RoundUp (kf_reg k) depth)) = Some x ->
  x <= Z.quot (t_l2_bytes t) (RoundUp (kf_reg k) depth) ->
  rows + 2 * kRows k < 2 ^ 31 -> cols + kCols k < 2 ^ 31 ->
  kCols k * (depth + kf_reg k) + t_l2_bytes t < 2 ^ 31 ->
  (if rf_is_one (t_factor t)
   then (rows + 2 * kRows k) * (depth + kf_reg k) < 2 ^ 31 /\ (rows + 2 * kRows k) * (cols + kCols k) < 2 ^ 31
   else kRows k * (depth + kf_reg k) + t_l2_bytes t < 2 ^ 31 /\ kRows k * (cols + kCols k) + t_l2_bytes t < 2 ^ 31) ->
  BlockParams_Init k rows cols depth num_threads t = Some bp ->
  (forall s start_width width start_depth,
     let p := GetSideBlockParams s bp in
     0 <= start_width -> 0 <= width -> start_width + width <= sp_l2_width p -> 0 <= start_depth <= sp_l2_depth p ->
     exists pos, run_pos_int m p start_width start_depth = Some pos /\ pos = run_pos p start_width start_depth /\
       0 <= pos /\ pos + width * Z.min (sp_l1_depth p) (sp_l2_depth p - start_depth) <= sp_l2_width p * sp_l2_depth p) /\
  (forall row col, 0 <= row < bp_l2_rows bp -> 0 <= col < bp_l2_cols bp ->
     exists i, result_offset_int m bp row col = Some i /\ i = row + col * bp_l2_rows bp /\
       0 <= i < bp_l2_rows bp * bp_l2_cols bp).
Proof. exact positions_fit. Qed.
Print Assumptions C70_positions.
(* the case of C70_example, whose hypotheses are checked there: the last run of the
   left block ends at its end, 20004 * 20000 *)
Example C70_positions_example :
  option_map (fun bp => (bp_l1_depth bp, bp_l2_depth bp, run_pos_int Trap (GetSideBlockParams Lhs bp) 19992 18000))
    (BlockParams_Init fmt_12x4 20000 20000 20000 1 x86_tuning) = Some (2000, 20000, Some 400056000) /\
  400056000 + 12 * 2000 = 20004 * 20000 /\
  option_map (fun bp => run_pos_int Trap (GetSideBlockParams Lhs bp) 0 45000)
    (BlockParams_Init fmt_12x4 50000 4 50000 1 x86_tuning) = Some None.
Proof. vm_compute. auto. Qed.
