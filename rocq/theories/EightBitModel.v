(* EightBitModel.v: model of eight_bit_int_gemm/eight_bit_int_gemm.cc compiled
   without the Meta fast path (GEMMLOWP_USE_META_FASTPATH undefined): the two
   EightBitIntGemm entry points, the global context, the global scratch buffer,
   the global lock, and concurrent callers.
   Simplifications: a client buffer is a separate memory named by a number, a
   pointer is such a number and an index; the allocator and the worker pool
   inside the context are left out, their effect being arbitrary contents of
   the GEMM's scratch buffers (AllocatorModel.v) and arbitrary interleavings of
   the stores of its tasks (PoolModel.v); the inputs of a call are read when its
   GEMM starts, so its result buffer must not be an input buffer; float is
   binary32, as given by SpecFloat of the standard library. *)
From Coq Require Import SpecFloat.
From Verif Require Import Base CommonModel PackModel FixedPointModel ComputeModel OutputModel GemmModel.

(* eight_bit_int_gemm.h 48-51; OtherDepth is any value outside the enum *)
Inductive bit_depth := A8B8 | A5B7 | OtherDepth.
Definition pointer : Type := (nat * Z)%type.
(* the arguments shared by the two entry points, .cc 301-306 and 338-343 *)
Record args := mk_args {
  x_ta : bool; x_tb : bool; x_tc : bool; x_m : Z; x_n : Z; x_k : Z;
  x_a : pointer; x_aoff : Z; x_lda : Z; x_b : pointer; x_boff : Z; x_ldb : Z;
  x_c : pointer; x_ldc : Z; x_bits : bit_depth }.

(* the stores of a GEMM: phases of concurrent tasks *)
Definition stores := list (list (list (Z * Z))).

(* what a GEMM depends on besides its arguments *)
Record env := mk_env { e_mode : ovf; e_kernel : kernel; e_tuning : tuning; e_hw : Z }.

(* .cc 81-86 *)
Definition order_of (transpose : bool) : map_order := if transpose then RowMajor else ColMajor.
Definition lhs_of (ta : bool) (x : args) (a : mem) : operand :=
  mk_operand a (mk_map (snd (x_a x)) (x_m x) (x_k x) (x_lda x) (order_of ta)).
Definition rhs_of (tb : bool) (x : args) (b : mem) : operand :=
  mk_operand b (mk_map (snd (x_b x)) (x_k x) (x_n x) (x_ldb x) (order_of tb)).
Definition result_of (tc : bool) (x : args) (base : Z) : matrix_map :=
  mk_map base (x_m x) (x_n x) (x_ldc x) (order_of tc).

(* .cc 68-105.  Both depth settings name the same bit depth parameters
   (bit_depth.h 53-61), hence the same kernel; other values abort. *)
Definition EightBitIntGemmImpl (ta tb tc : bool) (e : env) (mnt : Z) (sc : scratch) (scs : Z -> Z -> scratch)
    (x : args) (a b : mem) (c_offset c_mult_int c_shift : Z) : option stores :=
  let run := Gemm (e_mode e) (e_kernel e) (e_tuning e) (e_hw e) mnt sc scs
               (lhs_of ta x a) (rhs_of tb x b) (result_of tc x (snd (x_c x)))
               (x_aoff x) (x_boff x) c_offset c_mult_int c_shift in
  match x_bits x with
  | A8B8 => run
  | A5B7 => run
  | OtherDepth => None
  end.
(* .cc 107-141; the result is the scratch buffer *)
Definition EightBitIntGemmInt32Impl (ta tb tc : bool) (e : env) (mnt : Z) (sc : scratch) (scs : Z -> Z -> scratch)
    (x : args) (a b : mem) : option stores :=
  let run := GemmWithOutputPipeline (e_mode e) (e_kernel e) (e_tuning e) (e_hw e) mnt sc scs
               (lhs_of ta x a) (rhs_of tb x b) (result_of tc x 0) (x_aoff x) (x_boff x) [] in
  match x_bits x with
  | A8B8 => run
  | A5B7 => run
  | OtherDepth => None
  end.

(* .cc 319-335 and 365-381: eight tests one after the other *)
Definition handled_cases : list (bool * bool * bool) :=
  [(false, false, false); (false, false, true); (false, true, false); (false, true, true);
   (true, false, false); (true, false, true); (true, true, false); (true, true, true)].
Fixpoint run_cases (x : args) (impl : bool -> bool -> bool -> option stores)
    (cases : list (bool * bool * bool)) : option stores :=
  match cases with
  | [] => Some []
  | (ta, tb, tc) :: rest =>
      let* s := if Bool.eqb (x_ta x) ta && Bool.eqb (x_tb x) tb && Bool.eqb (x_tc x) tc
                then impl ta tb tc else Some [] in
      let* s' := run_cases x impl rest in
      Some (s ++ s')
  end.

(* .cc 319-335: the uint8 GEMM of the first entry point *)
Definition EightBitIntGemm_u8 (e : env) (mnt : Z) (sc : scratch) (scs : Z -> Z -> scratch)
    (x : args) (a b : mem) (c_offset c_mult_int c_shift : Z) : option stores :=
  run_cases x (fun ta tb tc => EightBitIntGemmImpl ta tb tc e mnt sc scs x a b c_offset c_mult_int c_shift)
    handled_cases.
(* .cc 365-381: the int32 GEMM of the second entry point *)
Definition EightBitIntGemm_i32 (e : env) (mnt : Z) (sc : scratch) (scs : Z -> Z -> scratch)
    (x : args) (a b : mem) : option stores :=
  run_cases x (fun ta tb tc => EightBitIntGemmInt32Impl ta tb tc e mnt sc scs x a b) handled_cases.

(* ------------------------------------------------------------------ *)
(* .cc 143-171: class Scratch.  so_mem is the memory at buffer_32_, seen as
   int32 cells; there is none before the first allocation. *)
Record scratch_obj := mk_so { so_size : Z; so_mem : mem }.
Definition new_Scratch : scratch_obj := mk_so 0 (fun _ => None).
(* 147-157; addr is where the new buffer of required_size + 32 bytes lies, junk
   what it contains.  new[] of a negative length throws. *)
Definition AssureSize (m : ovf) (required_size addr : Z) (junk : Z -> Z) (s : scratch_obj) : option scratch_obj :=
  if so_size s >=? required_size then Some s
  else
    let* len := norm m 32 (required_size + 32) in
    check (0 <=? len);
    let skip := Z.rem (32 - addr mod 32) 32 in
    check ((addr + skip) mod 32 =? 0);
    Some (mk_so required_size
           (fun i => if (0 <=? i) && (skip + 4 * i + 4 <=? len) then Some (wrapS 32 (junk i)) else None)).
(* 358-362: the argument, an int product times sizeof(std::int32_t) as an
   unsigned 64-bit size_t, converted back to int32 *)
Definition scratch_bytes (m : ovf) (x : args) : option Z :=
  let* p := norm m 32 ((if x_tc x then x_m x else x_n x) * x_ldc x) in
  Some (wrapS 32 (wrapU 64 (wrapU 64 p * 4))).

Definition float := spec_float.
Definition float_of_int32 (z : Z) : float := binary_normalize 24 128 z 0 false.
Definition fmul (x y : float) : float := SFmul 24 128 x y.
Definition fmem := Z -> option float.

(* 383-401: the positions visited by the final loops, relative to c and to
   temp_c *)
Definition conv_list (x : args) : list Z :=
  if x_tc x
  then flat_map (fun i => map (fun j => i * x_ldc x + j) (zrange (x_n x))) (zrange (x_m x))
  else flat_map (fun i => map (fun j => i * x_ldc x + j) (zrange (x_m x))) (zrange (x_n x)).

(* ------------------------------------------------------------------ *)
(* the four public entry points with their arguments, .cc 301-414 *)
Inductive call :=
  | CallU8 (x : args) (c_offset c_mult_int c_shift : Z)
  | CallF32 (x : args) (c_offset : float)
  | CallSetMaxNumThreads (n : Z)
  | CallFreePersistentResources.

(* w_ctx: the global context, reduced to max_num_threads_; w_scratch: the
   global scratch; the client's uint8 and float buffers *)
Record world := mk_world {
  w_ctx : option Z; w_scratch : option scratch_obj; w_bytes : nat -> mem; w_floats : nat -> fmem }.

(* .cc 53-61, multi_thread_gemm.h 563 *)
Definition GetOrCreateGlobalContext (w : world) : world :=
  mk_world (Some (match w_ctx w with Some n => n | None => 1 end)) (w_scratch w) (w_bytes w) (w_floats w).
(* .cc 173-180 *)
Definition GetOrCreateGlobalScratch (w : world) : scratch_obj :=
  match w_scratch w with Some s => s | None => new_Scratch end.

Definition set_buf {A} (f : nat -> A) (i : nat) (v : A) : nat -> A := fun j => if Nat.eqb j i then v else f j.
Definition with_scratch (w : world) (s : scratch_obj) : world := mk_world (w_ctx w) (Some s) (w_bytes w) (w_floats w).

(* a store of the GEMM inside call c: into the result buffer or into the
   scratch buffer *)
Definition store_for (c : call) (a v : Z) (w : world) : option world :=
  match c with
  | CallU8 x _ _ _ =>
      let* b := wr (w_bytes w (fst (x_c x))) a v in
      Some (mk_world (w_ctx w) (w_scratch w) (set_buf (w_bytes w) (fst (x_c x)) b) (w_floats w))
  | CallF32 x _ =>
      let* s := w_scratch w in
      let* b := wr (so_mem s) a v in
      Some (with_scratch w (mk_so (so_size s) b))
  | _ => None
  end.
(* 385-400: one iteration of the final loops *)
Definition convert_one (x : args) (scale : float) (i : Z) (w : world) : option world :=
  let* s := w_scratch w in
  let* v := rd (so_mem s) i in
  let buf := w_floats w (fst (x_c x)) in
  let* _ := buf (snd (x_c x) + i) in
  let d := fun a => if a =? snd (x_c x) + i then Some (fmul (float_of_int32 v) scale) else buf a in
  Some (mk_world (w_ctx w) (w_scratch w) (w_bytes w) (set_buf (w_floats w) (fst (x_c x)) d)).

(* where the thread holding the lock is inside a call *)
Inductive pc :=
  | PStart (c : call)                       (* the lock has just been taken *)
  | PScratch (x : args) (scale : float)     (* line 357 *)
  | PGemm (x : args) (scale : float)        (* line 365 *)
  | PStore (c : call) (s : stores)          (* inside the GEMM, s still to be stored *)
  | PConvert (x : args) (scale : float) (l : list Z)  (* lines 383-401 *)
  | PReturn                                 (* about to release the lock *)
  | PCrash.                                 (* undefined behaviour, abort or exception *)

Definition crash_or {A} (o : option A) (ok : A -> world * pc) (w : world) : world * pc :=
  match o with Some a => ok a | None => (w, PCrash) end.

(* one step of the thread holding the lock; the right-hand sides that mention
   sc, scs, addr, junk do so for arbitrary values *)
Inductive body_step (e : env) : world * pc -> world * pc -> Prop :=
  | bs_u8 : forall w x off mult shift sc scs,
      body_step e (w, PStart (CallU8 x off mult shift))
        (let w1 := GetOrCreateGlobalContext w in
         crash_or (let* mnt := w_ctx w1 in
                   EightBitIntGemm_u8 e mnt sc scs x (w_bytes w1 (fst (x_a x))) (w_bytes w1 (fst (x_b x))) off mult shift)
           (fun s => (w1, PStore (CallU8 x off mult shift) s)) w1)
  | bs_f32 : forall w x scale,
      body_step e (w, PStart (CallF32 x scale)) (GetOrCreateGlobalContext w, PScratch x scale)
  | bs_scratch : forall w x scale addr junk,
      body_step e (w, PScratch x scale)
        (let s := GetOrCreateGlobalScratch w in
         crash_or (let* n := scratch_bytes (e_mode e) x in AssureSize (e_mode e) n addr junk s)
           (fun s' => (with_scratch w s', PGemm x scale)) (with_scratch w s))
  | bs_gemm : forall w x scale sc scs,
      body_step e (w, PGemm x scale)
        (crash_or (let* mnt := w_ctx w in
                   EightBitIntGemm_i32 e mnt sc scs x (w_bytes w (fst (x_a x))) (w_bytes w (fst (x_b x))))
           (fun s => (w, PStore (CallF32 x scale) s)) w)
  | bs_store : forall w c ls1 a v l ls2 phs,
      body_step e (w, PStore c ((ls1 ++ ((a, v) :: l) :: ls2) :: phs))
        (crash_or (store_for c a v w) (fun w' => (w', PStore c ((ls1 ++ l :: ls2) :: phs))) w)
  | bs_phase : forall w c ph phs, (forall l, In l ph -> l = []) ->
      body_step e (w, PStore c (ph :: phs)) (w, PStore c phs)
  | bs_stored : forall w c,
      body_step e (w, PStore c [])
        (w, match c with CallF32 x scale => PConvert x scale (conv_list x) | _ => PReturn end)
  | bs_convert : forall w x scale i l,
      body_step e (w, PConvert x scale (i :: l))
        (crash_or (convert_one x scale i w) (fun w' => (w', PConvert x scale l)) w)
  | bs_converted : forall w x scale, body_step e (w, PConvert x scale []) (w, PReturn)
  | bs_set : forall w n,
      body_step e (w, PStart (CallSetMaxNumThreads n))
        (mk_world (Some n) (w_scratch w) (w_bytes w) (w_floats w), PReturn)
  | bs_free : forall w,
      body_step e (w, PStart CallFreePersistentResources)
        (mk_world None None (w_bytes w) (w_floats w), PReturn).

(* Concurrent callers: threads are numbers, a thread's program is the list of
   calls it still has to make.  ScopedLock (instrumentation.h 94-100) is taken
   by any thread while it is free (pthread mutex) and released on return.
   s_order is the history of calls, in the order in which they got the lock. *)
Record sys := mk_sys {
  s_world : world; s_lock : option (nat * pc); s_prog : nat -> list call; s_order : list (nat * call) }.
Inductive sys_step (e : env) : sys -> sys -> Prop :=
  | ss_acquire : forall w p o t c rest, p t = c :: rest ->
      sys_step e (mk_sys w None p o) (mk_sys w (Some (t, PStart c)) (set_buf p t rest) (o ++ [(t, c)]))
  | ss_run : forall w q w' q' p o t, body_step e (w, q) (w', q') ->
      sys_step e (mk_sys w (Some (t, q)) p o) (mk_sys w' (Some (t, q')) p o)
  | ss_release : forall w p o t, sys_step e (mk_sys w (Some (t, PReturn)) p o) (mk_sys w None p o).
Inductive sys_steps (e : env) : sys -> sys -> Prop :=
  | sys_refl : forall s, sys_steps e s s
  | sys_more : forall s1 s2 s3, sys_steps e s1 s2 -> sys_step e s2 s3 -> sys_steps e s1 s3.
