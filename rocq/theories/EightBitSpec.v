(* EightBitSpec.v: what each EightBitIntGemm call does to the client's buffers,
   and what a sequence of calls does.  Of the model only the argument records
   and the float operations are used: no GEMM, no scratch, no context. *)
From Coq Require Import SpecFloat.
From Verif Require Import Base FixedPointSpec GemmSpec GemmContract KernelSpec PackModel CommonModel ComputeModel EightBitModel.

(* The client's buffers. *)
Record memories := mk_memories { bytes : nat -> mem; floats : nat -> fmem }.
Definition client (w : world) : memories := mk_memories (w_bytes w) (w_floats w).

(* index of entry (r,c) of a matrix with leading dimension ld *)
Definition position (row_major : bool) (ld r c : Z) : Z := if row_major then r * ld + c else c * ld + r.
Definition a_pos (x : args) (r d : Z) : Z := snd (x_a x) + position (x_ta x) (x_lda x) r d.
Definition b_pos (x : args) (d c : Z) : Z := snd (x_b x) + position (x_tb x) (x_ldb x) d c.
Definition c_pos (x : args) (r c : Z) : Z := snd (x_c x) + position (x_tc x) (x_ldc x) r c.
Definition byte_at (b : mem) (i : Z) : Z := match b i with Some v => v | None => 0 end.

(* sum over d of (a(r,d) + a_offset) * (b(d,c) + b_offset) *)
Definition product (x : args) (M : memories) (r c : Z) : Z :=
  sumZ (fun d => (byte_at (bytes M (fst (x_a x))) (a_pos x r d) + x_aoff x)
               * (byte_at (bytes M (fst (x_b x))) (b_pos x d c) + x_boff x)) 0 (x_k x).

(* entry (r,c) of the result becomes out r c; every other cell of the buffer
   keeps its value *)
Definition writes {V} (x : args) (out : Z -> Z -> V) (before after : Z -> option V) : Prop :=
  (forall r c, 0 <= r < x_m x -> 0 <= c < x_n x -> after (c_pos x r c) = Some (out r c)) /\
  (forall i, (forall r c, 0 <= r < x_m x -> 0 <= c < x_n x -> i <> c_pos x r c) -> after i = before i).

Definition u8_result (x : args) (M : memories) (off mult shift r c : Z) : Z :=
  clampZ 0 255 (rnd_away (wrapS 32 ((product x M r c + off) * mult)) (2 ^ shift)).
Definition f32_result (x : args) (M : memories) (scale : float) (r c : Z) : float :=
  fmul (float_of_int32 (wrapS 32 (product x M r c))) scale.

(* M' is what call c makes of M.  A uint8 GEMM of depth 0 stores nothing. *)
Definition effect (c : call) (M M' : memories) : Prop :=
  match c with
  | CallU8 x off mult shift =>
      (if x_k x =? 0 then forall i, bytes M' (fst (x_c x)) i = bytes M (fst (x_c x)) i
       else writes x (u8_result x M off mult shift) (bytes M (fst (x_c x))) (bytes M' (fst (x_c x)))) /\
      (forall b i, b <> fst (x_c x) -> bytes M' b i = bytes M b i) /\ (forall b i, floats M' b i = floats M b i)
  | CallF32 x scale =>
      writes x (f32_result x M scale) (floats M (fst (x_c x))) (floats M' (fst (x_c x))) /\
      (forall b i, b <> fst (x_c x) -> floats M' b i = floats M b i) /\ (forall b i, bytes M' b i = bytes M b i)
  | _ => (forall b i, bytes M' b i = bytes M b i) /\ (forall b i, floats M' b i = floats M b i)
  end.
(* calls made one at a time *)
Fixpoint serial (l : list call) (M M' : memories) : Prop :=
  match l with
  | [] => (forall b i, bytes M' b i = bytes M b i) /\ (forall b i, floats M' b i = floats M b i)
  | c :: t => exists M1, effect c M M1 /\ serial t M1 M'
  end.
(* while c is running only entries of its result may differ *)
Definition changes_only (c : call) (M M' : memories) : Prop :=
  (forall b i, bytes M' b i = bytes M b i \/
     exists x off mult shift r k, c = CallU8 x off mult shift /\ b = fst (x_c x) /\ 0 <= r < x_m x /\ 0 <= k < x_n x /\ i = c_pos x r k) /\
  (forall b i, floats M' b i = floats M b i \/
     exists x scale r k, c = CallF32 x scale /\ b = fst (x_c x) /\ 0 <= r < x_m x /\ 0 <= k < x_n x /\ i = c_pos x r k).

(* ------------------------------------------------------------------ *)
(* acceptable inputs *)
Definition env_ok (e : env) : Prop :=
  kernel_fmt_ok (k_fmt (e_kernel e)) /\ kernel_usable (e_mode e) (e_kernel e) /\ packs_correct (e_mode e) (e_kernel e) /\ tuning_ok (e_tuning e) /\
  takes_uint8 (k_fmt (e_kernel e)).
(* every allocated cell of a uint8 buffer holds a byte *)
Definition holds_bytes (M : memories) : Prop := forall b i v, bytes M b i = Some v -> 0 <= v <= 255.

(* settings: the thread counts the client may configure *)
Record args_ok (e : env) (settings : Z -> Prop) (M : memories) (x : args) : Prop := {
  ao_ints : fits 32 (x_aoff x) /\ fits 32 (x_boff x);
  ao_sizes : 0 <= x_m x /\ 0 <= x_n x /\ 0 <= x_k x;
  ao_bits : x_bits x <> OtherDepth;
  ao_a : forall r d, 0 <= r < x_m x -> 0 <= d < x_k x -> bytes M (fst (x_a x)) (a_pos x r d) <> None;
  ao_b : forall d c, 0 <= d < x_k x -> 0 <= c < x_n x -> bytes M (fst (x_b x)) (b_pos x d c) <> None;
  ao_ldc : (if x_tc x then x_n x else x_m x) <= x_ldc x;
  ao_threads : forall n, settings n -> threads_ok (k_fmt (e_kernel e)) (e_hw e) n (Z.max (x_m x) (x_n x)) }.
(* with offsets bounded like this no int32 accumulator overflows, whatever the
   bytes are *)
Definition acc_safe (e : env) (x : args) (Ml Mr : Z) : Prop :=
  255 <= Ml /\ 255 <= Mr /\ Ml * Mr * (x_k x + kf_reg (k_fmt (e_kernel e)) - 1) <= 2 ^ 31 - 1 /\
  - Ml <= x_aoff x <= Ml - 255 /\ - Mr <= x_boff x <= Mr - 255.
Definition call_ok (e : env) (settings : Z -> Prop) (M : memories) (c : call) : Prop :=
  match c with
  | CallU8 x off mult shift =>
      args_ok e settings M x /\
      (forall r c, 0 <= r < x_m x -> 0 <= c < x_n x -> bytes M (fst (x_c x)) (c_pos x r c) <> None) /\
      fst (x_c x) <> fst (x_a x) /\ fst (x_c x) <> fst (x_b x) /\ (0 <= shift <= 31 /\ fits 32 off /\ fits 32 mult) /\
      (e_mode e = Wrap \/ exists Ml Mr, acc_safe e x Ml Mr /\
         forall z, Z.abs z <= Ml * Mr * x_k x -> fits 32 (z + off) /\ fits 32 ((z + off) * mult))
  | CallF32 x _ =>
      args_ok e settings M x /\ 0 < x_k x /\
      (forall r c, 0 <= r < x_m x -> 0 <= c < x_n x -> floats M (fst (x_c x)) (c_pos x r c) <> None) /\
      4 * ((if x_tc x then x_m x else x_n x) * x_ldc x) + 32 <= 2 ^ 31 - 1 /\
      (e_mode e = Wrap \/ exists Ml Mr, acc_safe e x Ml Mr)
  | CallSetMaxNumThreads n => settings n
  | CallFreePersistentResources => True
  end.

Definition calls_of (t : nat) (o : list (nat * call)) : list call :=
  map snd (filter (fun p => Nat.eqb (fst p) t) o).
Definition is_gemm (c : call) : bool := match c with CallU8 _ _ _ _ | CallF32 _ _ => true | _ => false end.

(* the scratch buffer has all the int32 cells its recorded size promises *)
Definition scratch_ok (s : scratch_obj) : Prop :=
  0 <= so_size s /\ forall i, 0 <= i -> 4 * i + 4 <= so_size s -> so_mem s i <> None.
