(* TransformModel.v: model of the one-dimensional transforms of meta/ on ARM: the
   inline assembly of transform_kernels_arm_64.h and transform_kernels_arm_32.h,
   single_thread_transform.h and multi_thread_transform.h.
   32-bit ARM: q registers are the vector registers, of which there are only 16; a d
   register is a half of one; r0 and r1 have the parts of w0 and x1.
   A register lane holds a value of some type V; the operations on lanes are a
   parameter (ops), instantiated by lane_ops below.  Memories are arrays of
   elements, pointers are element indices, and input, bias and output do not
   overlap.  Reading lanes at another width than they were written with gives the
   unknown value o_any, as do registers before they are written; no specified
   output depends on it.  Processor in its default floating point mode (round to
   nearest even; no flushing to zero on ARM64).  prfm and pld have no effect. *)
From Coq Require Import SpecFloat.
From Verif Require Import Base OutputModel EightBitModel QuantModel MetaModel.

(* ------------------------------------------------------------------ *)
(* Instructions *)
(* the parameters of the transforms, transform_kernels.h 23-68 *)
Inductive pname :=
  | P_input_range_min | P_input_range_offset | P_input_range_scale | P_output_range_min | P_output_range_offset
  | P_one_over_output_range_scale | P_range_min | P_range_offset | P_range_scale
  | P_bias_range_min | P_bias_range_offset | P_bias_range_scale | P_min | P_max.
(* what ld1 and st1 transfer: register r (16 bytes), its low half (a load clears the
   high half), lane i of w bytes *)
Inductive shape := SFull (r : nat) | SHalf (r : nat) | SLane (r w i : nat).
Inductive instr :=
  | Ld (s : shape) | LdBias (s : shape) | St (s : shape)   (* ld1 from input, from x1; st1 to output; post-increment *)
  | Ldr (p : pname) | Dup (d w : nat) (p : pname) | DupW0 (d w : nat)   (* ldr w0; dup from a parameter, from w0 *)
  | Fadd (d a b : nat) | Fsub (d a b : nat) | Fmul (d a b : nat)        (* .4s *)
  | Scvtf (d a : nat) | Fcvtns (d a : nat) | Fcvtzs (d a : nat)         (* .4s *)
  | Umax (d a b : nat) | Umin (d a b : nat)                             (* .16b *)
  | Uxtl (d a : nat) | Uxtl2 (d a : nat) | Sxtl (d a : nat) | Sxtl2 (d a : nat)   (* bytes to words; words to dwords *)
  | Sqxtn (d a : nat) | Sqxtn2 (d a : nat)                              (* dwords to words *)
  | Sqxtun (d a : nat) | Sqxtun2 (d a : nat)                            (* words to bytes *)
  | SqxtnD (d a : nat) | SqxtunD (d a : nat).                           (* the same on 32-bit ARM: the high half is kept *)

Record ops (V : Type) := mk_ops {
  o_any : V; o_zero : V; o_fadd : V -> V -> V; o_fsub : V -> V -> V; o_fmul : V -> V -> V;
  o_scvtf : V -> V; o_fcvtns : V -> V; o_fcvtzs : V -> V; o_umax : V -> V -> V; o_umin : V -> V -> V;
  o_uxtl : V -> V; o_sxtl : V -> V; o_sqxtn : V -> V; o_sqxtun : V -> V }.
Arguments o_any {V}. Arguments o_zero {V}. Arguments o_fadd {V}. Arguments o_fsub {V}. Arguments o_fmul {V}.
Arguments o_scvtf {V}. Arguments o_fcvtns {V}. Arguments o_fcvtzs {V}. Arguments o_umax {V}. Arguments o_umin {V}.
Arguments o_uxtl {V}. Arguments o_sxtl {V}. Arguments o_sqxtn {V}. Arguments o_sqxtun {V}.

Section Machine.
Context {V : Type} (o : ops V) (param : pname -> V).
(* element sizes of input and output *)
Context (isz osz : nat).

(* a register: the value of lane i at a lane width of w bytes *)
Definition vreg := nat -> nat -> V.
(* w0 and the vector registers *)
Record cpu := mk_cpu { c_w0 : V; c_v : list vreg }.
Definition unknown : vreg := fun _ _ => o_any o.
Definition rget (c : cpu) (r : nat) : vreg := nth r (c_v c) unknown.
Fixpoint set_at {A} (l : list A) (n : nat) (x : A) : list A :=
  match l, n with [], _ => [] | _ :: t, O => x :: t | h :: t, S k => h :: set_at t k x end.
Definition rset (c : cpu) (r : nat) (x : vreg) : cpu := mk_cpu (c_w0 c) (set_at (c_v c) r x).
(* lanes of width w *)
Definition lanes_of (w : nat) (f : nat -> V) : vreg := fun w' i => if Nat.eqb w' w then f i else o_any o.

(* arithmetic; None for loads and stores *)
Definition alu (i : instr) (c : cpu) : option cpu :=
  let v := rget c in
  let op1 d f a := Some (rset c d (lanes_of 4 (fun i => f (v a 4%nat i)))) in
  let op2 d w f a b := Some (rset c d (lanes_of w (fun i => f (v a w i) (v b w i)))) in
  match i with
  | Ldr p => Some (mk_cpu (param p) (c_v c))
  | Dup d w p => Some (rset c d (lanes_of w (fun _ => param p)))
  | DupW0 d w => Some (rset c d (lanes_of w (fun _ => c_w0 c)))
  | Fadd d a b => op2 d 4%nat (o_fadd o) a b
  | Fsub d a b => op2 d 4%nat (o_fsub o) a b
  | Fmul d a b => op2 d 4%nat (o_fmul o) a b
  | Scvtf d a => op1 d (o_scvtf o) a
  | Fcvtns d a => op1 d (o_fcvtns o) a
  | Fcvtzs d a => op1 d (o_fcvtzs o) a
  | Umax d a b => op2 d 1%nat (o_umax o) a b
  | Umin d a b => op2 d 1%nat (o_umin o) a b
  | Uxtl d a => Some (rset c d (lanes_of 2 (fun i => o_uxtl o (v a 1%nat i))))
  | Uxtl2 d a => Some (rset c d (lanes_of 2 (fun i => o_uxtl o (v a 1%nat (8 + i)%nat))))
  | Sxtl d a => Some (rset c d (lanes_of 4 (fun i => o_sxtl o (v a 2%nat i))))
  | Sxtl2 d a => Some (rset c d (lanes_of 4 (fun i => o_sxtl o (v a 2%nat (4 + i)%nat))))
  | Sqxtn d a => Some (rset c d (lanes_of 2 (fun i => if Nat.ltb i 4 then o_sqxtn o (v a 4%nat i) else o_zero o)))
  | Sqxtn2 d a => Some (rset c d (lanes_of 2 (fun i => if Nat.ltb i 4 then v d 2%nat i else o_sqxtn o (v a 4%nat (i - 4)%nat))))
  | Sqxtun d a => Some (rset c d (lanes_of 1 (fun i => if Nat.ltb i 8 then o_sqxtun o (v a 2%nat i) else o_zero o)))
  | Sqxtun2 d a => Some (rset c d (lanes_of 1 (fun i => if Nat.ltb i 8 then v d 1%nat i else o_sqxtun o (v a 2%nat (i - 8)%nat))))
  | SqxtnD d a => Some (rset c d (lanes_of 2 (fun i => if Nat.ltb i 4 then o_sqxtn o (v a 4%nat i) else v d 2%nat i)))
  | SqxtunD d a => Some (rset c d (lanes_of 1 (fun i => if Nat.ltb i 8 then o_sqxtun o (v a 2%nat i) else v d 1%nat i)))
  | Ld _ | LdBias _ | St _ => None
  end.

(* elements of sz bytes in a transfer: register, first lane, number *)
Definition s_reg (s : shape) : nat := match s with SFull r | SHalf r | SLane r _ _ => r end.
Definition s_first (sz : nat) (s : shape) : nat := match s with SFull _ | SHalf _ => 0 | SLane _ w i => Nat.div (w * i) sz end.
Definition s_count (sz : nat) (s : shape) : nat :=
  match s with SFull _ => Nat.div 16 sz | SHalf _ => Nat.div 8 sz | SLane _ w _ => Nat.div w sz end.
Definition loaded (s : shape) (xs : list V) (c : cpu) : cpu :=
  let old := rget c (s_reg s) isz in
  let first := s_first isz s in
  let n := s_count isz s in
  rset c (s_reg s) (lanes_of isz (fun i =>
    if Nat.leb first i && Nat.ltb i (first + n) then nth (i - first) xs (o_any o)
    else match s with SHalf _ => o_zero o | _ => old i end)).
Definition to_store (s : shape) (c : cpu) : list V :=
  map (rget c (s_reg s) osz) (seq (s_first osz s) (s_count osz s)).

(* ------------------------------------------------------------------ *)
(* Execution: the pointers input, x1 and output, and the stores so far in reverse *)
Record mstate := mk_st { t_cpu : cpu; t_in : Z; t_bias : Z; t_out : Z; t_log : list (Z * V) }.
Fixpoint cells (m : Z -> option V) (a : Z) (n : nat) : option (list V) :=
  match n with
  | O => Some []
  | S k => let* x := m a in let* t := cells m (a + 1) k in Some (x :: t)
  end.
Fixpoint log_of (a : Z) (l : list V) (log : list (Z * V)) : list (Z * V) :=
  match l with [] => log | x :: t => log_of (a + 1) t ((a, x) :: log) end.
Definition step (input bias : Z -> option V) (i : instr) (s : mstate) : option mstate :=
  let c := t_cpu s in
  match i with
  | Ld sh =>
      let n := s_count isz sh in
      let* xs := cells input (t_in s) n in
      Some (mk_st (loaded sh xs c) (t_in s + Z.of_nat n) (t_bias s) (t_out s) (t_log s))
  | LdBias sh =>
      let n := s_count isz sh in
      let* xs := cells bias (t_bias s) n in
      Some (mk_st (loaded sh xs c) (t_in s) (t_bias s + Z.of_nat n) (t_out s) (t_log s))
  | St sh =>
      let xs := to_store sh c in
      Some (mk_st c (t_in s) (t_bias s) (t_out s + Z.of_nat (length xs)) (log_of (t_out s) xs (t_log s)))
  | _ => let* c := alu i c in Some (mk_st c (t_in s) (t_bias s) (t_out s) (t_log s))
  end.
Fixpoint exec (input bias : Z -> option V) (p : list instr) (s : mstate) : option mstate :=
  match p with [] => Some s | i :: t => let* s := step input bias i s in exec input bias t s end.

(* 1: subs count, 16; body; bne 1b.  fuel bounds the iterations *)
Fixpoint loop16 (fuel : nat) (input bias : Z -> option V) (body : list instr) (count : Z) (s : mstate) : option mstate :=
  match fuel with
  | O => None
  | S f =>
      let count := count - 16 in
      let* s := exec input bias body s in
      if count =? 0 then Some s else loop16 f input bias body count s
  end.
(* the loop with the instructions around it: without leftovers only the loop; with
   leftovers: subs count, leftovers; beq 2f; loop; 2: post *)
Definition one_row (fuel : nat) (input bias : Z -> option V) (body post : list instr) (leftovers count : Z) (s : mstate) : option mstate :=
  if leftovers =? 0 then loop16 fuel input bias body count s
  else
    let count := count - leftovers in
    let* s := if count =? 0 then Some s else loop16 fuel input bias body count s in
    exec input bias post s.
(* BiasAdd: for each row mov x0, count; mov x1, bias; the loop; subs rows, 1; bne 1b *)
Fixpoint rows_loop (fuel : nat) (inner : nat) (input bias : Z -> option V) (bias_ptr : Z) (body post : list instr)
    (leftovers count rows : Z) (s : mstate) : option mstate :=
  match fuel with
  | O => None
  | S f =>
      let s := mk_st (t_cpu s) (t_in s) bias_ptr (t_out s) (t_log s) in
      let* s := one_row inner input bias body post leftovers count s in
      let rows := rows - 1 in
      if rows =? 0 then Some s else rows_loop f inner input bias bias_ptr body post leftovers count rows s
  end.

End Machine.

(* ------------------------------------------------------------------ *)
(* a kernel for all numbers of leftovers: element sizes of input and output in
   bytes, the pieces of the assembly, whether it loops over rows (BiasAdd) *)
Record tkernel := mk_tk { tk_isz : nat; tk_osz : nat; tk_pre : list instr; tk_body : list instr; tk_post : Z -> list instr; tk_rows : bool }.
Section Transform.
Context {V : Type} (o : ops V) (param : pname -> V).
(* Transform1DKernel<..., 16, leftovers>::Transform, with any previous register
   contents; the result is the list of stores in program order *)
Definition TransformKernel (k : tkernel) (fuel : nat) (junk : cpu (V := V)) (leftovers count rows : Z)
    (input : Z -> option V) (ip : Z) (bias : Z -> option V) (bp : Z) (op : Z) : option (list (Z * V)) :=
  let isz := tk_isz k in
  let osz := tk_osz k in
  let* s := exec o param isz osz input bias (tk_pre k) (mk_st junk ip bp op []) in
  let* s :=
    if tk_rows k then rows_loop o param isz osz fuel fuel input bias bp (tk_body k) (tk_post k leftovers) leftovers count rows s
    else one_row o param isz osz fuel input bias (tk_body k) (tk_post k leftovers) leftovers count s in
  Some (rev (t_log s)).
(* single_thread_transform.h 39-86 with kernel_size 16: Dispatch1D tries 15, 14, ..., 0
   and exits the program otherwise (None) *)
Fixpoint Dispatch1D (variable_leftovers : nat) (leftovers : Z) : option Z :=
  if leftovers =? Z.of_nat variable_leftovers then Some (Z.of_nat variable_leftovers)
  else match variable_leftovers with O => None | S k => Dispatch1D k leftovers end.
Definition Transform1D (k : tkernel) (fuel : nat) (junk : cpu (V := V)) (count rows : Z)
    (input : Z -> option V) (ip : Z) (bias : Z -> option V) (bp : Z) (op : Z) : option (list (Z * V)) :=
  let* l := Dispatch1D 15 (Z.rem count 16) in
  TransformKernel k fuel junk l count rows input ip bias bp op.

(* multi_thread_transform.h 27-61: the tasks as (offset, count); None for an int
   overflow (Trap), Some [] when it returns false.  cost is the factor of
   EstimateComputeCost (transform_kernels.h 163-229) *)
Definition kTransformTaskOverhead := 128000.
Definition kMinTransformTaskSize := 32000.
Definition PrepareTransform1DTasks (mode : ovf) (max_threads cost count : Z) : option (list (Z * Z)) :=
  let* task_size := norm mode 32 (count * cost) in
  let* size := norm mode 32 (task_size - kTransformTaskOverhead) in
  let max_tasks_by_size := Z.quot size kMinTransformTaskSize in
  let real_tasks := Z.max 1 (Z.min max_threads max_tasks_by_size) in
  if real_tasks =? 1 then Some []
  else
    let chunk := Z.quot count real_tasks in
    let sum_chunk := (real_tasks - 1) * chunk in
    Some (map (fun i => (Z.of_nat i * chunk, chunk)) (seq 0 (Z.to_nat (real_tasks - 1))) ++ [(sum_chunk, count - sum_chunk)]).
(* multi_thread_transform.h 74-93: the stores of each task *)
Definition MultiThreadTransform1D (mode : ovf) (k : tkernel) (fuel : nat) (junk : nat -> cpu (V := V)) (hw max_num_threads cost count : Z)
    (input : Z -> option V) (ip : Z) (op : Z) : option (list (list (Z * V))) :=
  let none := fun _ : Z => None in
  let* tasks := PrepareTransform1DTasks mode (ResolveMaxThreads hw max_num_threads) cost count in
  match tasks with
  | [] => let* log := Transform1D k fuel (junk 0%nat) count 1 input ip none 0 op in Some [log]
  | _ => mapM (fun nt : nat * (Z * Z) => let '(n, (offset, cnt)) := nt in
                 Transform1D k fuel (junk n) cnt 1 input (ip + offset) none 0 (op + offset)) (combine (seq 0 (length tasks)) tasks)
  end.
End Transform.

(* ------------------------------------------------------------------ *)
(* The lanes of the processor: an integer modulo 2^width, a float, or unknown *)
Inductive lane := LI (z : Z) | LF (f : float) | LAny.
(* conversions to int32: round to nearest even (fcvtns), towards zero (fcvtzs);
   saturating, NaN gives 0 *)
Definition sat32 (z : Z) : Z := Z.min (Z.max z (- 2147483648)) 2147483647.
Definition int_of_float (round : positive -> Z -> Z) (x : float) : Z :=
  match x with
  | S754_zero _ | S754_nan => 0
  | S754_infinity s => if s then - 2147483648 else 2147483647
  | S754_finite s m e => sat32 (if s then - round m e else round m e)
  end.
(* m * 2^e rounded; for e < 0 by the quotient and remainder of 2^-e *)
Definition nearest_even (m : positive) (e : Z) : Z :=
  if 0 <=? e then Zpos m * 2 ^ e
  else
    let q := Zpos m / 2 ^ (- e) in
    let r := Zpos m mod 2 ^ (- e) in
    if 2 * r <? 2 ^ (- e) then q
    else if 2 ^ (- e) <? 2 * r then q + 1
    else if Z.even q then q else q + 1.
Definition truncated (m : positive) (e : Z) : Z := if 0 <=? e then Zpos m * 2 ^ e else Zpos m / 2 ^ (- e).
Definition lane_ops_of (add sub mul : float -> float -> float) : ops lane :=
  let f2 g := fun x y => match x, y with LF a, LF b => LF (g a b) | _, _ => LAny end in
  let i2 g := fun x y => match x, y with LI a, LI b => LI (g a b) | _, _ => LAny end in
  let i1 g := fun x => match x with LI a => LI (g a) | _ => LAny end in
  let fi g := fun x => match x with LF a => LI (g a) | _ => LAny end in
  mk_ops lane LAny (LI 0) (f2 add) (f2 sub) (f2 mul)
    (fun x => match x with LI a => LF (float_of_Z (wrapS 32 a)) | _ => LAny end)
    (fi (int_of_float nearest_even)) (fi (int_of_float truncated))
    (i2 (fun a b => Z.max (wrapU 8 a) (wrapU 8 b))) (i2 (fun a b => Z.min (wrapU 8 a) (wrapU 8 b)))
    (i1 (wrapU 8)) (i1 (wrapS 16))
    (i1 (fun a => Z.min (Z.max (wrapS 32 a) (- 32768)) 32767)) (i1 (fun a => Z.min (Z.max (wrapS 16 a) 0) 255)).
(* ARM64 *)
Definition lane_ops : ops lane := lane_ops_of fadd fsub fmul.
(* 32-bit ARM: vector instructions flush operands and results below 2^-126 to zero,
   the result of a product before it is rounded (sums this small are exact) *)
Definition flush (x : float) : float :=
  match x with S754_finite s m e => if Z.log2 (Zpos m) + e <? - 126 then S754_zero s else x | _ => x end.
Definition fadd32 (x y : float) : float := flush (fadd (flush x) (flush y)).
Definition fsub32 (x y : float) : float := flush (fsub (flush x) (flush y)).
Definition fmul32 (x y : float) : float :=
  match flush x, flush y with
  | S754_finite s1 m1 e1, S754_finite s2 m2 e2 =>
      if Z.log2 (Zpos m1 * Zpos m2) + (e1 + e2) <? - 126 then S754_zero (xorb s1 s2) else fmul (flush x) (flush y)
  | _, _ => fmul (flush x) (flush y)
  end.
Definition lane_ops32 : ops lane := lane_ops_of fadd32 fsub32 fmul32.

(* ------------------------------------------------------------------ *)
(* The parameters in memory: Requantize, Quantize and Dequantize, MinMax, BiasAdd of
   transform_kernels.h 23-68 *)
Definition requantize_params (imin ioff iscale omin ooff oscale : float) (p : pname) : lane :=
  match p with
  | P_input_range_min => LF imin | P_input_range_offset => LF ioff | P_input_range_scale => LF iscale
  | P_output_range_min => LF omin | P_output_range_offset => LF ooff | P_one_over_output_range_scale => LF oscale
  | _ => LAny
  end.
Definition quantize_params (min off scale : float) (p : pname) : lane :=
  match p with P_range_min => LF min | P_range_offset => LF off | P_range_scale => LF scale | _ => LAny end.
Definition minmax_params (lo hi : Z) (p : pname) : lane := match p with P_min => LI lo | P_max => LI hi | _ => LAny end.
Definition biasadd_params (imin ioff iscale bmin boff bscale omin ooff oscale : float) (p : pname) : lane :=
  match p with
  | P_input_range_min => LF imin | P_input_range_offset => LF ioff | P_input_range_scale => LF iscale
  | P_bias_range_min => LF bmin | P_bias_range_offset => LF boff | P_bias_range_scale => LF bscale
  | P_output_range_min => LF omin | P_output_range_offset => LF ooff | P_one_over_output_range_scale => LF oscale
  | _ => LAny
  end.
(* meta/test_transform_correctness.cc 183-199 and the first element of its data *)
Definition test_scale : float := fdiv (float_of_Z 200) (float_of_Z (2 ^ 32 - 1)).
Definition test_one_over : float := fdiv (float_of_Z 255) (float_of_Z 200).
Definition test_requantize_params : pname -> lane :=
  requantize_params (float_of_Z (-100)) (float_of_Z (- 2147483648)) test_scale (float_of_Z (-100)) (float_of_Z 0) test_one_over.
