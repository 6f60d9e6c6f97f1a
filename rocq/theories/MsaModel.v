(* MsaModel.v: the MIPS and MSA instructions used by the inline assembly of
   internal/kernel_msa.h, and a machine executing lists of them.  Modelled after
   the instruction descriptions of the MIPS SIMD Architecture manual.
   Simplifications: general registers are unbounded integers (addresses, strides
   and the depth counter do not wrap around; addu/daddu, addiu/daddiu and sll/dsll,
   which the header selects by word size at 33-41, are one instruction each); the
   lhs and rhs pointers are indices into the byte memory of their own packed
   block, the destination pointers are byte addresses of a memory of int32 cells;
   branches have no delay slot (the assembler, which reorders by default, fills
   it). *)
From Verif Require Import Base CommonModel PackModel ComputeModel SimdModel X86Model.

(* ------------------------------------------------------------------ *)
(* Vector instructions, destination first in the source *)
(* LDI.df: the immediate in every lane of w bits *)
Definition w_ldi (w imm : Z) : reg := vpack (Z.to_nat (128 / w)) w (fun _ => imm).
(* ILVR.B, ILVL.B ws, wt: the right (low) or left (high) bytes of wt in the even
   and those of ws in the odd bytes *)
Definition w_ilvr (a b : reg) : reg := vpack 16 8 (fun i => if i mod 2 =? 0 then get 8 (i / 2) b else get 8 (i / 2) a).
Definition w_ilvl (a b : reg) : reg := vpack 16 8 (fun i => if i mod 2 =? 0 then get 8 (8 + i / 2) b else get 8 (8 + i / 2) a).
(* SPLATI.W *)
Definition w_splati (a : reg) (n : Z) : reg := vpack 4 32 (fun _ => get 32 n a).
(* DPADD_U.W: unsigned words multiplied, adjacent products added to the dword of d *)
Definition w_dpadd_u (d a b : reg) : reg :=
  vpack 4 32 (fun i => get 32 i d
    + (getU 16 (2 * i) a * getU 16 (2 * i) b + getU 16 (2 * i + 1) a * getU 16 (2 * i + 1) b)).
(* DPADD_S.W: signed words *)
Definition w_dpadd_s (d a b : reg) : reg :=
  vpack 4 32 (fun i => get 32 i d
    + (get 16 (2 * i) a * get 16 (2 * i) b + get 16 (2 * i + 1) a * get 16 (2 * i + 1) b)).
(* DOTP_S.H: signed bytes multiplied, adjacent products added in 16 bits *)
Definition w_dotp_s (a b : reg) : reg :=
  vpack 8 16 (fun i => get 8 (2 * i) a * get 8 (2 * i) b + get 8 (2 * i + 1) a * get 8 (2 * i + 1) b).
(* HADD_S.D: odd dwords of a plus even dwords of b, in 64 bits *)
Definition w_hadd_s (a b : reg) : reg := vpack 2 64 (fun i => get 32 (2 * i + 1) a + get 32 (2 * i) b).
(* PCKEV.W ws, wt: the even dwords of wt, then those of ws *)
Definition w_pckev (a b : reg) : reg := vpack 4 32 (fun i => if i <? 2 then get 32 (2 * i) b else get 32 (2 * (i - 2)) a).
(* ADDV.W *)
Definition w_addv (a b : reg) : reg := vpack 4 32 (fun i => get 32 i a + get 32 i b).

(* ------------------------------------------------------------------ *)
(* The operands named in the asm statements (dst_ptr or dst_ptr0 is MDst), $a0, $a1 *)
Inductive mgp := MLhs | MRhs | MDst | MDst1 | MDst2 | MDst3 | MRun | MStart | MStride | MA0 | MA1.
Record mgprs := mk_mg { m_lhs : Z; m_rhs : Z; m_dst : Z; m_dst1 : Z; m_dst2 : Z; m_dst3 : Z; m_run : Z; m_start : Z;
                        m_stride : Z; m_a0 : Z; m_a1 : Z }.
Definition mget (g : mgprs) (x : mgp) : Z :=
  match x with
  | MLhs => m_lhs g | MRhs => m_rhs g | MDst => m_dst g | MDst1 => m_dst1 g | MDst2 => m_dst2 g | MDst3 => m_dst3 g
  | MRun => m_run g | MStart => m_start g | MStride => m_stride g | MA0 => m_a0 g | MA1 => m_a1 g
  end.
Definition mset (g : mgprs) (x : mgp) (v : Z) : mgprs :=
  let 'mk_mg a b c c1 c2 c3 d e f t u := g in
  match x with
  | MLhs => mk_mg v b c c1 c2 c3 d e f t u | MRhs => mk_mg a v c c1 c2 c3 d e f t u
  | MDst => mk_mg a b v c1 c2 c3 d e f t u | MDst1 => mk_mg a b c v c2 c3 d e f t u
  | MDst2 => mk_mg a b c c1 v c3 d e f t u | MDst3 => mk_mg a b c c1 c2 v d e f t u
  | MRun => mk_mg a b c c1 c2 c3 v e f t u | MStart => mk_mg a b c c1 c2 c3 d v f t u
  | MStride => mk_mg a b c c1 c2 c3 d e v t u
  | MA0 => mk_mg a b c c1 c2 c3 d e f v u | MA1 => mk_mg a b c c1 c2 c3 d e f t v
  end.

Inductive mop :=
  (* LD.B of the lhs or rhs block; LD.W and ST.W of the destination *)
  | MLdB (d : nat) (b : mgp) (disp : Z) | MLdW (d : nat) (b : mgp) (disp : Z) | MStW (s : nat) (b : mgp) (disp : Z)
  | MLdi (d : nat) (w imm : Z) | MIlvr (d a b : nat) | MIlvl (d a b : nat) | MSplati (d a : nat) (n : Z)
  | MDpaddU (d a b : nat) | MDpaddS (d a b : nat) | MDotpS (d a b : nat) | MHadd (d a b : nat) | MPckev (d a b : nat)
  | MAddv (d a b : nat)
  | MAdd (d x y : mgp) | MAddI (d : mgp) (imm : Z) | MSll (d x : mgp) (imm : Z)
  (* BEQZ (true), BNEZ (false) *)
  | MBranch (z : bool) (x : mgp) (target : nat) | MJump (target : nat).

Record mstate := mk_ms { ms_w : list reg; ms_g : mgprs; ms_dst : mem }.
Definition mwget (s : mstate) (i : nat) : reg := nth i (ms_w s) 0.
Definition mwset (s : mstate) (i : nat) (v : reg) : mstate := mk_ms (set_nth (ms_w s) i v) (ms_g s) (ms_dst s).
Definition mgset (s : mstate) (x : mgp) (v : Z) : mstate := mk_ms (ms_w s) (mset (ms_g s) x v) (ms_dst s).
Definition mdset (s : mstate) (m : mem) : mstate := mk_ms (ms_w s) (ms_g s) m.

(* one instruction: next position and state *)
Definition mstep (lhs rhs : mem) (i : mop) (pc : nat) (s : mstate) : option (nat * mstate) :=
  let g := ms_g s in
  let v := mwget s in
  let blk b := match b with MLhs => lhs | _ => rhs end in
  match i with
  | MLdB d b disp =>
      let* l := load_cells (blk b) (mget g b + disp) 16 in Some (S pc, mwset s d (vec_of 16 8 l))
  | MLdW d b disp => let* x := v_load 4 (ms_dst s) (mget g b + disp) in Some (S pc, mwset s d x)
  | MStW r b disp => let* m := v_store 4 (ms_dst s) (mget g b + disp) (v r) in Some (S pc, mdset s m)
  | MLdi d w imm => Some (S pc, mwset s d (w_ldi w imm))
  | MIlvr d a b => Some (S pc, mwset s d (w_ilvr (v a) (v b)))
  | MIlvl d a b => Some (S pc, mwset s d (w_ilvl (v a) (v b)))
  | MSplati d a n => Some (S pc, mwset s d (w_splati (v a) n))
  | MDpaddU d a b => Some (S pc, mwset s d (w_dpadd_u (v d) (v a) (v b)))
  | MDpaddS d a b => Some (S pc, mwset s d (w_dpadd_s (v d) (v a) (v b)))
  | MDotpS d a b => Some (S pc, mwset s d (w_dotp_s (v a) (v b)))
  | MHadd d a b => Some (S pc, mwset s d (w_hadd_s (v a) (v b)))
  | MPckev d a b => Some (S pc, mwset s d (w_pckev (v a) (v b)))
  | MAddv d a b => Some (S pc, mwset s d (w_addv (v a) (v b)))
  | MAdd d x y => Some (S pc, mgset s d (mget g x + mget g y))
  | MAddI d imm => Some (S pc, mgset s d (mget g d + imm))
  | MSll d x imm => Some (S pc, mgset s d (mget g x * 2 ^ imm))
  | MBranch z x t => Some (if Bool.eqb z (mget g x =? 0) then t else S pc, s)
  | MJump t => Some (t, s)
  end.
(* until the end of the list; None when an access fails or the fuel runs out *)
Fixpoint mexec (fuel : nat) (lhs rhs : mem) (prog : list mop) (pc : nat) (s : mstate) : option mstate :=
  match nth_error prog pc with
  | None => Some s
  | Some i =>
      match fuel with
      | O => None
      | S f => let* ps := mstep lhs rhs i pc s in mexec f lhs rhs prog (fst ps) (snd ps)
      end
  end.

(* Run of the kernels: kernel_msa.h 52-271, 291-568.  The initial contents of the
   registers are arbitrary; the row stride is checked where the source asserts it
   (chk, line 63); dst_ptr1, 2, 3 are the operands of lines 555-557; the fuel
   suffices for every run. *)
Definition msa_Run (chk : bool) (prog : list mop) (junk : list reg) (t0 t1 : Z)
    (result : mem) (dst_ptr rs cs : Z) (lhs : mem) (lhs_ptr : Z) (rhs : mem) (rhs_ptr start run : Z) : option mem :=
  check (negb chk || (rs =? 1));
  let s := mk_ms junk (mk_mg lhs_ptr rhs_ptr (4 * dst_ptr) (4 * (dst_ptr + cs)) (4 * (dst_ptr + cs * 2)) (4 * (dst_ptr + cs * 3))
                         run start cs t0 t1) result in
  let* s := mexec (Z.to_nat (300 * (run + 3))) lhs rhs prog 0 s in
  Some (ms_dst s).
