(* Props_EightBit.v: property theorems C35-C37, about the EightBitIntGemm
   interface (EightBitModel.v).  The effect of each call on the client's buffers
   is defined in EightBitSpec.v, without any GEMM, scratch buffer or context.
   call_ok e settings M c: call c has valid arguments for the buffers M, and for
   every thread count in [settings]. *)
From Coq Require Import SpecFloat Relation_Operators.
From Verif Require Import Base CommonModel PackModel ComputeModel OutputModel GemmModel GemmContract GemmExample FixedPointSpec
  EightBitModel EightBitSpec EightBitProofs2 EightBitProofs4.

(* C35: the stores of the uint8 entry point, in any order in which the tasks can
   perform them, put u8_result into the entries of c, each entry once; the
   layout of a, b, c follows the three flags *)
Theorem C35_layout :
  forall e (settings : Z -> Prop) M x off mult shift max_num_threads sc scs, env_ok e -> holds_bytes M ->
  call_ok e settings M (CallU8 x off mult shift) -> settings max_num_threads ->
  exists s, EightBitIntGemm_u8 e max_num_threads sc scs x (bytes M (fst (x_a x))) (bytes M (fst (x_b x))) off mult shift = Some s /\
    (exists trace, execution s trace) /\
    forall trace, execution s trace ->
      NoDup (map fst trace) /\
      exists after, perform trace (bytes M (fst (x_c x))) = Some after /\
        if x_k x =? 0 then (forall i, after i = bytes M (fst (x_c x)) i)
        else writes x (u8_result x M off mult shift) (bytes M (fst (x_c x))) after.
Proof. exact eight_bit_layout. Qed.
Print Assumptions C35_layout.
(* with checked arithmetic the formula is the exact one *)
Theorem C35_exact_formula :
  forall e (settings : Z -> Prop) M x off mult shift r c, env_ok e -> holds_bytes M ->
  call_ok e settings M (CallU8 x off mult shift) -> e_mode e = Trap -> 0 <= r < x_m x -> 0 <= c < x_n x ->
  u8_result x M off mult shift r c = clampZ 0 255 (rnd_away ((product x M r c + off) * mult) (2 ^ shift)).
Proof. exact u8_result_exact. Qed.
Print Assumptions C35_exact_formula.
(* A5B7 is A8B8 *)
Theorem C35_depth_setting_ignored :
  forall e max_num_threads sc scs ta tb tc m n k a ao lda b bo ldb c ldc A B off mult shift,
  EightBitIntGemm_u8 e max_num_threads sc scs (mk_args ta tb tc m n k a ao lda b bo ldb c ldc A5B7) A B off mult shift
  = EightBitIntGemm_u8 e max_num_threads sc scs (mk_args ta tb tc m n k a ao lda b bo ldb c ldc A8B8) A B off mult shift.
Proof. exact eight_bit_depth_setting. Qed.
Print Assumptions C35_depth_setting_ignored.
(* hypotheses met for all flags; the same buffers with two values of the first
   flag *)
Example C35_example : env_ok e8_env /\ holds_bytes (client e8_world) /\
  (forall ta tb tc, call_ok e8_env e8_settings (client e8_world) (CallU8 (e8_args ta tb tc) 50 13 10)) /\ e8_settings 3 /\
  EightBitIntGemm_u8 e8_env 3 (ex_scratch 1) (fun c n => ex_scratch (c + n)) (e8_args true false true) (e8_bytes 0) (e8_bytes 1) 50 13 10
    = Some [[[(3, 0); (4, 74); (5, 0); (7, 12); (8, 0); (9, 46)]]] /\
  EightBitIntGemm_u8 e8_env 3 (ex_scratch 1) (fun c n => ex_scratch (c + n)) (e8_args false false true) (e8_bytes 0) (e8_bytes 1) 50 13 10
    = Some [[[(3, 0); (4, 29); (5, 0); (7, 94); (8, 0); (9, 128)]]].
Proof.
  split; [exact e8_env_ok|]. split; [exact e8_holds|]. split; [intros ta tb tc; apply e8_u8_ok; discriminate|]. split; [split; discriminate|].
  split; vm_compute; reflexivity.
Qed.

(* C36: whatever calls of whatever threads came before (they leave the scratch
   buffer in some state), a finished float call has written float(acc) * scale
   to every entry of its result and nothing else.  M is the contents of the
   buffers when it took the lock. *)
Theorem C36_float_result :
  forall (e : env) (settings : Z -> Prop) (w0 : world) (prog : nat -> list call), env_ok e -> settings 1 -> w_ctx w0 = None -> w_scratch w0 = None -> holds_bytes (client w0) ->
  (forall t c, In c (prog t) -> call_ok e settings (client w0) c) ->
  forall s o t x scale, sys_steps e (mk_sys w0 None prog []) s -> s_lock s = None -> s_order s = o ++ [(t, CallF32 x scale)] ->
  exists M, serial (map snd o) (client w0) M /\
    (forall r c, 0 <= r < x_m x -> 0 <= c < x_n x ->
       w_floats (s_world s) (fst (x_c x)) (c_pos x r c) = Some (fmul (float_of_int32 (wrapS 32 (product x M r c))) scale) /\
       (e_mode e = Trap -> fits 32 (product x M r c))) /\
    (forall b i, w_floats (s_world s) b i <> floats M b i ->
       b = fst (x_c x) /\ exists r c, 0 <= r < x_m x /\ 0 <= c < x_n x /\ i = c_pos x r c) /\
    (forall b i, w_bytes (s_world s) b i = bytes M b i).
Proof. exact history_float. Qed.
Print Assumptions C36_float_result.
(* the scratch buffer: after AssureSize every int32 cell below the requested
   size exists, wherever the buffer lies, and it never shrinks *)
Theorem C36_scratch_large_enough :
  forall m required addr junk s, 0 <= required -> required + 32 <= 2 ^ 31 - 1 -> scratch_ok s ->
  exists s', AssureSize m required addr junk s = Some s' /\ scratch_ok s' /\ required <= so_size s' /\ so_size s <= so_size s'.
Proof. exact AssureSize_ok. Qed.
Print Assumptions C36_scratch_large_enough.
Example C36_example :
  call_ok e8_env e8_settings (client e8_world) (CallF32 (e8_args false false true) half) /\
  map (fun q => product (e8_args false false true) (client e8_world) (fst q) (snd q)) [(0, 0); (0, 1); (1, 2)] = [-1227; 2214; 10040] /\
  map (fun q => f32_result (e8_args false false true) (client e8_world) half (fst q) (snd q)) [(0, 0); (0, 1); (1, 2)]
    = [S754_finite true 10051584 (-14); S754_finite false 9068544 (-13); S754_finite false 10280960 (-11)] /\
  match AssureSize Trap 24 1003 (fun i => i) new_Scratch with
  | Some s' => so_mem s' 5 = Some 5 /\ so_mem s' 8 = None
  | None => False
  end.
Proof.
  split; [apply e8_f32_ok; discriminate|]. split; [reflexivity|]. split; [vm_compute; reflexivity|].
  vm_compute. split; reflexivity.
Qed.
(* with k = 0 the call does not store the accumulators 0 but whatever the scratch
   buffer contained: two runs from the same state differ *)
Theorem C36_depth_zero_refuted :
  exists e w x scale w1 w2, x_m x = 1 /\ x_n x = 1 /\ x_k x = 0 /\ w_ctx w = None /\ w_scratch w = None /\
  clos_refl_trans_1n _ (body_step e) (w, PStart (CallF32 x scale)) (w1, PReturn) /\
  clos_refl_trans_1n _ (body_step e) (w, PStart (CallF32 x scale)) (w2, PReturn) /\
  w_floats w1 (fst (x_c x)) (c_pos x 0 0) <> w_floats w2 (fst (x_c x)) (c_pos x 0 0).
Proof. exact depth0_refuted. Qed.
Print Assumptions C36_depth_zero_refuted.
(* with m * ldc = 2^30 no int overflows, but the byte count 2^32 becomes 0 and
   no buffer is allocated *)
Theorem C36_size_truncation_refuted :
  exists x, 0 < x_m x /\ 0 < x_n x /\ 0 < x_k x /\ x_n x <= x_ldc x /\ x_tc x = true /\ fits 32 (x_m x * x_ldc x) /\
  forall m addr junk, exists s', bind (scratch_bytes m x) (fun n => AssureSize m n addr junk new_Scratch) = Some s' /\ so_mem s' 0 = None.
Proof. exact huge_scratch_refuted. Qed.
Print Assumptions C36_size_truncation_refuted.

(* C37: in every execution of any number of threads the calls take effect one
   at a time in lock order (which respects each thread's own order), no call
   crashes, and the one in progress has changed nothing but its own result *)
Theorem C37_serializable :
  forall (e : env) (settings : Z -> Prop) (w0 : world) (prog : nat -> list call), env_ok e -> settings 1 -> w_ctx w0 = None -> w_scratch w0 = None -> holds_bytes (client w0) ->
  (forall t c, In c (prog t) -> call_ok e settings (client w0) c) ->
  forall s, sys_steps e (mk_sys w0 None prog []) s ->
  (forall t, calls_of t (s_order s) ++ s_prog s t = prog t) /\
  match s_lock s with
  | None => serial (map snd (s_order s)) (client w0) (client (s_world s))
  | Some (t, q) => q <> PCrash /\ exists o c M, s_order s = o ++ [(t, c)] /\ serial (map snd o) (client w0) M /\
      changes_only c M (client (s_world s)) /\ (q = PReturn -> effect c M (client (s_world s)))
  end.
Proof. exact history_serializable. Qed.
Print Assumptions C37_serializable.
(* two executions with the same sequence of GEMM calls end with the same
   buffers, wherever SetMaxNumThreads and FreePersistentResources were called *)
Theorem C37_history_independent :
  forall (e : env) (settings : Z -> Prop) (w0 : world) (prog : nat -> list call), env_ok e -> settings 1 -> w_ctx w0 = None -> w_scratch w0 = None -> holds_bytes (client w0) ->
  (forall t c, In c (prog t) -> call_ok e settings (client w0) c) ->
  forall s1 s2, sys_steps e (mk_sys w0 None prog []) s1 -> s_lock s1 = None ->
  sys_steps e (mk_sys w0 None prog []) s2 -> s_lock s2 = None ->
  filter is_gemm (map snd (s_order s1)) = filter is_gemm (map snd (s_order s2)) ->
  (forall b i, w_bytes (s_world s1) b i = w_bytes (s_world s2) b i) /\ (forall b i, w_floats (s_world s1) b i = w_floats (s_world s2) b i).
Proof. exact history_results. Qed.
Print Assumptions C37_history_independent.
(* no deadlock; and with finitely many threads every execution ends, with all
   calls made *)
Theorem C37_no_deadlock :
  forall (e : env) (settings : Z -> Prop) (w0 : world) (prog : nat -> list call), env_ok e -> settings 1 -> w_ctx w0 = None -> w_scratch w0 = None -> holds_bytes (client w0) ->
  (forall t c, In c (prog t) -> call_ok e settings (client w0) c) ->
  forall s t, sys_steps e (mk_sys w0 None prog []) s -> s_prog s t <> [] \/ s_lock s <> None -> exists s', sys_step e s s'.
Proof. exact history_no_deadlock. Qed.
Print Assumptions C37_no_deadlock.
Theorem C37_all_calls_complete :
  forall (e : env) (settings : Z -> Prop) (w0 : world) (prog : nat -> list call), env_ok e -> settings 1 -> w_ctx w0 = None -> w_scratch w0 = None -> holds_bytes (client w0) ->
  (forall t c, In c (prog t) -> call_ok e settings (client w0) c) ->
  forall N, (forall t, (N <= t)%nat -> prog t = []) ->
  Acc (fun b a => sys_step e a b) (mk_sys w0 None prog []) /\
  exists s, sys_steps e (mk_sys w0 None prog []) s /\ s_lock s = None /\ forall t, s_prog s t = [].
Proof. exact history_completes. Qed.
Print Assumptions C37_all_calls_complete.
(* two threads with five calls between them meet the hypotheses; and both
   threads can be the first to get the lock *)
Example C37_example : env_ok e8_env /\ e8_settings 1 /\ w_ctx e8_world = None /\ w_scratch e8_world = None /\ holds_bytes (client e8_world) /\
  (forall t c, In c (e8_prog t) -> call_ok e8_env e8_settings (client e8_world) c) /\
  (forall t, (2 <= t)%nat -> e8_prog t = []) /\
  (forall t, (t < 2)%nat -> exists s c, sys_step e8_env (mk_sys e8_world None e8_prog []) s /\ s_order s = [(t, c)]).
Proof.
  split; [exact e8_env_ok|]. split; [split; discriminate|]. split; [reflexivity|]. split; [reflexivity|]. split; [exact e8_holds|].
  split; [exact e8_prog_ok|]. split.
  - intros [|[|t]] H; [lia|lia|reflexivity].
  - intros [|[|t]] H; [| |lia]; do 2 eexists.
    + split; [apply ss_acquire with (t := 0%nat); reflexivity|reflexivity].
    + split; [apply ss_acquire with (t := 1%nat); reflexivity|reflexivity].
Qed.
