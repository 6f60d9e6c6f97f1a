(* X86Model.v: the x86 instructions used by the inline assembly of
   internal/kernel_sse.h and kernel_avx.h, and a machine executing lists of them.
   Modelled after Intel's description of the instructions.
   Simplifications: general registers are unbounded integers (addresses, strides
   and the depth counter do not wrap around at 2^32 or 2^64); the lhs and rhs
   pointers are indices into the byte memory of their own packed block and the
   destination pointer is a byte address of a memory of int32 cells; prefetches
   have no effect; only the flags CF, ZF, SF are kept. *)
From Verif Require Import Base CommonModel PackModel ComputeModel SimdModel.

(* ------------------------------------------------------------------ *)
(* Vector instructions on registers of n dwords: n = 4 for xmm, n = 8 for ymm *)
Definition vpack (n : nat) (w : Z) (f : Z -> Z) : reg := pack_n w f n.
Definition v_xor (a b : reg) : reg := Z.lxor a b.
(* (V)PADDD *)
Definition v_paddd (n : nat) (a b : reg) : reg := vpack n 32 (fun i => get 32 i a + get 32 i b).
(* (V)PMADDWD: signed words multiplied, adjacent products added *)
Definition v_pmaddwd (n : nat) (a b : reg) : reg :=
  vpack n 32 (fun i => get 16 (2 * i) a * get 16 (2 * i) b + get 16 (2 * i + 1) a * get 16 (2 * i + 1) b).
(* (V)PSHUFD: inside each 128-bit half, dword i becomes dword imm[2i+1:2i] *)
Definition v_pshufd (n : nat) (imm : Z) (a : reg) : reg :=
  vpack n 32 (fun i => get 32 (4 * (i / 4) + Z.land (Z.shiftr imm (2 * (i mod 4))) 3) a).
(* VPERMQ: qword i becomes qword imm[2i+1:2i] *)
Definition v_permq (imm : Z) (a : reg) : reg :=
  vpack 4 64 (fun i => get 64 (Z.land (Z.shiftr imm (2 * i)) 3) a).

(* n consecutive cells of a memory *)
Fixpoint load_cells (m : mem) (a : Z) (n : nat) : option (list Z) :=
  match n with
  | O => Some []
  | S k => let* v := rd m a in let* r := load_cells m (a + 1) k in Some (v :: r)
  end.
Definition vec_of (n : nat) (w : Z) (l : list Z) : reg := vpack n w (fun i => nth (Z.to_nat i) l 0).
(* (V)PMOVZXBW from memory: 2n bytes zero-extended to words *)
Definition v_pmovzxbw (n : nat) (m : mem) (a : Z) : option reg :=
  let* l := load_cells m a (2 * n) in Some (vec_of (2 * n) 16 l).
(* a vector of n dwords from the int32 cells at byte address a *)
Definition v_load (n : nat) (m : mem) (a : Z) : option reg :=
  check (a mod 4 =? 0); let* l := load_cells m (a / 4) n in Some (vec_of n 32 l).
(* (V)MOVDQU to memory *)
Fixpoint store_cells (m : mem) (a : Z) (l : list Z) : option mem :=
  match l with
  | [] => Some m
  | v :: r => let* m := wr m a v in store_cells m (a + 1) r
  end.
Definition v_store (n : nat) (m : mem) (a : Z) (v : reg) : option mem :=
  check (a mod 4 =? 0); store_cells m (a / 4) (map (fun i => get 32 (Z.of_nat i) v) (seq 0 n)).

(* ------------------------------------------------------------------ *)
(* The operands named in the asm statements, and the scratch registers (eax, ecx
   or r12, r13, r14) *)
Inductive gp := Lhs_ptr | Rhs_ptr | Dst_ptr | Run_depth_cells | Start_depth | Dst_col_stride
  | Tmp0 | Tmp1 | Tmp2.
Record gprs := mk_gprs { g_lhs : Z; g_rhs : Z; g_dst : Z; g_cells : Z; g_start : Z; g_stride : Z;
                         g_t0 : Z; g_t1 : Z; g_t2 : Z }.
Definition gget (g : gprs) (x : gp) : Z :=
  match x with
  | Lhs_ptr => g_lhs g | Rhs_ptr => g_rhs g | Dst_ptr => g_dst g | Run_depth_cells => g_cells g
  | Start_depth => g_start g | Dst_col_stride => g_stride g
  | Tmp0 => g_t0 g | Tmp1 => g_t1 g | Tmp2 => g_t2 g
  end.
Definition gset (g : gprs) (x : gp) (v : Z) : gprs :=
  let 'mk_gprs a b c d e f t u w := g in
  match x with
  | Lhs_ptr => mk_gprs v b c d e f t u w | Rhs_ptr => mk_gprs a v c d e f t u w
  | Dst_ptr => mk_gprs a b v d e f t u w | Run_depth_cells => mk_gprs a b c v e f t u w
  | Start_depth => mk_gprs a b c d v f t u w | Dst_col_stride => mk_gprs a b c d e v t u w
  | Tmp0 => mk_gprs a b c d e f v u w | Tmp1 => mk_gprs a b c d e f t v w
  | Tmp2 => mk_gprs a b c d e f t u v
  end.
(* displacement, base, optional index and scale *)
Inductive xaddr := Addr (disp : Z) (base : gp) (index : option (gp * Z)).
Definition xaddr_of (g : gprs) (a : xaddr) : Z :=
  let 'Addr disp b ix := a in
  disp + gget g b + match ix with Some (i, s) => gget g i * s | None => 0 end.

Inductive cond := CondS | CondA | CondNZ | CondZ.
(* sources first, destination last *)
Inductive xop :=
  | XPxor (s1 s2 d : nat) | XPmovzxbw (b : gp) (disp : Z) (d : nat)
  | XPshufd (imm : Z) (s d : nat) | XPermq (imm : Z) (s d : nat)
  | XPmaddwd (s1 s2 d : nat) | XPaddd (s1 s2 d : nat) | XPadddM (a : xaddr) (s d : nat)
  | XStore (s : nat) (a : xaddr) | XPrefetch
  | XMov (s d : gp) | XAdd (imm : Z) (d : gp) | XSub (imm : Z) (d : gp) | XDec (d : gp)
  | XShl (imm : Z) (d : gp) | XLea (b i : gp) (scale : Z) (d : gp) | XTest (a b : gp)
  | XJ (c : cond) (target : nat).

Record flags := mk_flags { f_c : bool; f_z : bool; f_s : bool }.
Definition holds_cond (c : cond) (f : flags) : bool :=
  match c with
  | CondS => f_s f | CondNZ => negb (f_z f) | CondZ => f_z f
  | CondA => negb (f_c f) && negb (f_z f)       (* above: CF = 0 and ZF = 0 *)
  end.
Record xstate := mk_xs { xs_v : list reg; xs_g : gprs; xs_f : flags; xs_dst : mem }.
Definition vget (s : xstate) (i : nat) : reg := nth i (xs_v s) 0.
Fixpoint set_nth {A} (l : list A) (i : nat) (v : A) : list A :=
  match l, i with
  | [], _ => [] | _ :: r, O => v :: r | x :: r, S k => x :: set_nth r k v
  end.
Definition vset (s : xstate) (i : nat) (v : reg) : xstate :=
  mk_xs (set_nth (xs_v s) i v) (xs_g s) (xs_f s) (xs_dst s).
Definition gsetf (s : xstate) (d : gp) (v : Z) (f : flags) : xstate :=
  mk_xs (xs_v s) (gset (xs_g s) d v) f (xs_dst s).

(* one instruction: next position and state *)
Definition xstep (n : nat) (lhs rhs : mem) (i : xop) (pc : nat) (s : xstate) : option (nat * xstate) :=
  let g := xs_g s in
  match i with
  | XPxor s1 s2 d => Some (S pc, vset s d (v_xor (vget s s1) (vget s s2)))
  | XPmovzxbw b disp d =>
      let* v := v_pmovzxbw n (match b with Lhs_ptr => lhs | _ => rhs end) (disp + gget g b) in
      Some (S pc, vset s d v)
  | XPshufd imm s1 d => Some (S pc, vset s d (v_pshufd n imm (vget s s1)))
  | XPermq imm s1 d => Some (S pc, vset s d (v_permq imm (vget s s1)))
  | XPmaddwd s1 s2 d => Some (S pc, vset s d (v_pmaddwd n (vget s s1) (vget s s2)))
  | XPaddd s1 s2 d => Some (S pc, vset s d (v_paddd n (vget s s1) (vget s s2)))
  | XPadddM a s2 d => let* v := v_load n (xs_dst s) (xaddr_of g a) in Some (S pc, vset s d (v_paddd n v (vget s s2)))
  | XStore s1 a => let* m := v_store n (xs_dst s) (xaddr_of g a) (vget s s1) in
                   Some (S pc, mk_xs (xs_v s) g (xs_f s) m)
  | XPrefetch => Some (S pc, s)
  | XMov a d => Some (S pc, mk_xs (xs_v s) (gset g d (gget g a)) (xs_f s) (xs_dst s))
  | XAdd imm d => let r := gget g d + imm in Some (S pc, gsetf s d r (mk_flags false (r =? 0) (r <? 0)))
  | XSub imm d => let r := gget g d - imm in Some (S pc, gsetf s d r (mk_flags ((0 <=? gget g d) && (gget g d <? imm)) (r =? 0) (r <? 0)))
  | XDec d => let r := gget g d - 1 in Some (S pc, gsetf s d r (mk_flags (f_c (xs_f s)) (r =? 0) (r <? 0)))
  | XShl imm d => let r := gget g d * 2 ^ imm in Some (S pc, gsetf s d r (mk_flags false (r =? 0) (r <? 0)))
  | XLea b i sc d => Some (S pc, mk_xs (xs_v s) (gset g d (gget g b + gget g i * sc)) (xs_f s) (xs_dst s))
  | XTest a b => let r := Z.land (gget g a) (gget g b) in
                 Some (S pc, mk_xs (xs_v s) g (mk_flags false (r =? 0) (r <? 0)) (xs_dst s))
  | XJ c t => Some (if holds_cond c (xs_f s) then t else S pc, s)
  end.
(* until the end of the list; None when an access fails or the fuel runs out *)
Fixpoint xexec (fuel : nat) (n : nat) (lhs rhs : mem) (prog : list xop) (pc : nat) (s : xstate) : option xstate :=
  match nth_error prog pc with
  | None => Some s
  | Some i =>
      match fuel with
      | O => None
      | S f => let* ps := xstep n lhs rhs i pc s in xexec f n lhs rhs prog (fst ps) (snd ps)
      end
  end.

(* Run of the kernels: kernel_sse.h 38-205, 218-514, kernel_avx.h 41-356.  The
   initial contents of the vector and scratch registers are arbitrary (junk);
   the asserted row stride is checked; the fuel suffices for every run. *)
Definition x86_Run (n : nat) (prog : list xop) (k : kernel_fmt) (junk : list reg) (t0 t1 t2 : Z) (fl : flags)
    (result : mem) (dst_ptr rs cs : Z) (lhs : mem) (lhs_ptr : Z) (rhs : mem) (rhs_ptr start run : Z) : option mem :=
  check (rs =? 1);
  let s := mk_xs junk
    (mk_gprs lhs_ptr rhs_ptr (4 * dst_ptr) (Z.quot run (kDepth k)) start cs t0 t1 t2) fl result in
  let* s := xexec (Z.to_nat (300 * (run + 2))) n lhs rhs prog 0 s in
  Some (xs_dst s).
