(* ArmModel.v: the ARM instructions used by the inline assembly of
   internal/kernel_neon.h, and a machine executing lists of them.  Modelled after
   the instruction descriptions of the Arm Architecture Reference Manuals.
   Both instruction sets share one machine of 128-bit registers: v0..v31 on
   AArch64; q0..q15 on AArch32, where d(2i) and d(2i+1) are the low (half 0) and
   high (half 1) half of q(i).
   Simplifications: general registers are unbounded integers (addresses, strides
   and the depth counter do not wrap around, also where the dotprod kernel uses
   the 32-bit view %w of its counter); the lhs and rhs pointers are indices into
   the byte memory of their own packed block, the destination pointer is a byte
   address of a memory of int32 cells, and the local array of the 12-bit kernel
   is a memory of its own, each access saying which memory it means; alignment
   hints (:64) are ignored; a load or store of several registers is written as
   one access per register; only the Z flag and the signed comparison N = V are
   kept. *)
From Verif Require Import Base CommonModel PackModel ComputeModel SimdModel X86Model.

(* ------------------------------------------------------------------ *)
(* Vector instructions; h = 0 or 1 selects a 64-bit half *)
(* UXTL, VMOVL.U8: bytes of half h, zero-extended *)
Definition v_movl (n : reg) (h : Z) : reg := vpack 8 16 (fun i => getU 8 (8 * h + i) n).
(* UMLAL, UMLAL2, VMLAL.U16 by element idx of m: words of half h *)
Definition v_mlal16 (d n : reg) (h : Z) (m : reg) (idx : Z) : reg :=
  vpack 4 32 (fun i => get 32 i d + getU 16 (4 * h + i) n * getU 16 idx m).
(* SMULL, VMULL.S8 of halves hn, hm *)
Definition v_mull8 (n : reg) (hn : Z) (m : reg) (hm : Z) : reg :=
  vpack 8 16 (fun i => get 8 (8 * hn + i) n * get 8 (8 * hm + i) m).
(* SMLAL, SMLAL2, VMLAL.S8 *)
Definition v_mlal8 (d n : reg) (hn : Z) (m : reg) (hm : Z) : reg :=
  vpack 8 16 (fun i => get 16 i d + get 8 (8 * hn + i) n * get 8 (8 * hm + i) m).
(* VMLAL.U8 *)
Definition v_mlalu8 (d n : reg) (hn : Z) (m : reg) (hm : Z) : reg :=
  vpack 8 16 (fun i => get 16 i d + getU 8 (8 * hn + i) n * getU 8 (8 * hm + i) m).
(* SADALP, VPADAL.S16 and VPADAL.U16 *)
Definition v_padal (d n : reg) : reg := vpack 4 32 (fun i => get 32 i d + (get 16 (2 * i) n + get 16 (2 * i + 1) n)).
Definition v_padalu (d n : reg) : reg := vpack 4 32 (fun i => get 32 i d + (getU 16 (2 * i) n + getU 16 (2 * i + 1) n)).
(* ADDP of 4 dwords *)
Definition v_addp (n m : reg) : reg :=
  vpack 4 32 (fun i => if i <? 2 then get 32 (2 * i) n + get 32 (2 * i + 1) n
                       else get 32 (2 * i - 4) m + get 32 (2 * i - 3) m).
(* VPADD.I32 of the halves hn, hm into half h of d *)
Definition v_paddD (d : reg) (h : Z) (n : reg) (hn : Z) (m : reg) (hm : Z) : reg :=
  vpack 4 32 (fun i => if i =? 2 * h then get 32 (2 * hn) n + get 32 (2 * hn + 1) n
                       else if i =? 2 * h + 1 then get 32 (2 * hm) m + get 32 (2 * hm + 1) m
                       else get 32 i d).
(* UDOT by element: 4 bytes of each dword with the 4 bytes of dword idx of m *)
Definition v_udot (d n m : reg) (idx : Z) : reg :=
  vpack 4 32 (fun i => get 32 i d
    + (getU 8 (4 * i) n * getU 8 (4 * idx) m + getU 8 (4 * i + 1) n * getU 8 (4 * idx + 1) m
       + getU 8 (4 * i + 2) n * getU 8 (4 * idx + 2) m + getU 8 (4 * i + 3) n * getU 8 (4 * idx + 3) m)).
(* 8 bytes into half h; AArch64 clears the other half (z), AArch32 keeps it *)
Definition v_set8 (z : bool) (d : reg) (h : Z) (l : list Z) : reg :=
  vpack 16 8 (fun i => if i / 8 =? h then nth (Z.to_nat (i mod 8)) l 0 else if z then 0 else get 8 i d).
(* VEXT.8 on the half h of n (both sources the same): bytes rotated by imm *)
Definition v_rot8 (n : reg) (h imm : Z) : reg :=
  vpack 16 8 (fun i => if i / 8 =? h then get 8 (8 * h + (i mod 8 + imm) mod 8) n else get 8 i n).
(* VEXT.32 of a q register with itself: dwords rotated by imm *)
Definition v_rot32 (n : reg) (imm : Z) : reg := vpack 4 32 (fun i => get 32 ((i + imm) mod 4) n).
(* VTRN.32: the two results *)
Definition v_trn1 (a b : reg) : reg := vpack 4 32 (fun i => if i mod 2 =? 0 then get 32 i a else get 32 (i - 1) b).
Definition v_trn2 (a b : reg) : reg := vpack 4 32 (fun i => if i mod 2 =? 0 then get 32 (i + 1) a else get 32 i b).
(* half h of d replaced by half k of n *)
Definition v_put (d : reg) (h : Z) (n : reg) (k : Z) : reg :=
  vpack 4 32 (fun i => if i / 2 =? h then get 32 (2 * k + i mod 2) n else get 32 i d).
(* half h of d replaced by the dwords x0, x1 *)
Definition v_put2 (d : reg) (h x0 x1 : Z) : reg :=
  vpack 4 32 (fun i => if i =? 2 * h then x0 else if i =? 2 * h + 1 then x1 else get 32 i d).
(* VLD4.32, VST4.32 {d(h of a), ...}: 8 dwords of memory, word 4*i+k is dword i of
   the k-th half register *)
Definition v_words4 (h : Z) (a b c d : reg) : list Z :=
  [get 32 (2 * h) a; get 32 (2 * h) b; get 32 (2 * h) c; get 32 (2 * h) d;
   get 32 (2 * h + 1) a; get 32 (2 * h + 1) b; get 32 (2 * h + 1) c; get 32 (2 * h + 1) d].

(* ------------------------------------------------------------------ *)
(* The operands named in the asm statements, the scratch registers r0/x0, r1/x1
   and the address of the local array *)
Inductive agp := ALhs | ARhs | ADst | ARun | AStart | AStride | AR0 | AR1 | AGlob.
Record agprs := mk_ag { a_lhs : Z; a_rhs : Z; a_dst : Z; a_run : Z; a_start : Z; a_stride : Z; a_r0 : Z; a_r1 : Z }.
Definition aget (g : agprs) (x : agp) : Z :=
  match x with
  | ALhs => a_lhs g | ARhs => a_rhs g | ADst => a_dst g | ARun => a_run g | AStart => a_start g
  | AStride => a_stride g | AR0 => a_r0 g | AR1 => a_r1 g | AGlob => 0
  end.
Definition aset (g : agprs) (x : agp) (v : Z) : agprs :=
  let 'mk_ag a b c d e f t u := g in
  match x with
  | ALhs => mk_ag v b c d e f t u | ARhs => mk_ag a v c d e f t u | ADst => mk_ag a b v d e f t u
  | ARun => mk_ag a b c v e f t u | AStart => mk_ag a b c d v f t u | AStride => mk_ag a b c d e v t u
  | AR0 => mk_ag a b c d e f v u | AR1 => mk_ag a b c d e f t v | AGlob => g
  end.
Inductive aoff := OImm (z : Z) | OReg (r : agp).
Definition aoff_of (g : agprs) (o : aoff) : Z := match o with OImm z => z | OReg r => aget g r end.
Inductive acond := CAL | CEQ | CNE | CGE.
Inductive aspace := SDst | SLoc.

Inductive aop :=
  (* 8 or 16 bytes from [b + disp] of the lhs or rhs block; b increased by post *)
  | NLd8 (z : bool) (d : nat) (h : Z) (b : agp) (disp post : Z) | NLd16 (d : nat) (b : agp) (post : Z)
  (* 4 dwords of the destination or of the local array *)
  | NLdW (sp : aspace) (d : nat) (b : agp) (post : aoff) | NStW (sp : aspace) (s : nat) (b : agp) (post : aoff)
  | NLd4 (h : Z) (d0 d1 d2 d3 : nat) (b : agp) (post : Z) | NSt4 (h : Z) (s0 s1 s2 s3 : nat) (b : agp) (post : Z)
  | NZero (d : nat) | NMovQ (d s : nat)
  | NMovl (d n : nat) (h : Z) | NMlal16 (d n : nat) (h : Z) (m : nat) (idx : Z)
  | NMull8 (d n : nat) (hn : Z) (m : nat) (hm : Z) | NMlal8 (d n : nat) (hn : Z) (m : nat) (hm : Z)
  | NMlalU8 (d n : nat) (hn : Z) (m : nat) (hm : Z)
  | NPadal (d n : nat) | NPadalU (d n : nat) | NAddp (d n m : nat)
  | NPaddD (d : nat) (h : Z) (n : nat) (hn : Z) (m : nat) (hm : Z) | NAddQ (d n m : nat)
  | NUdot (d n m : nat) (idx : Z)
  | NRot8 (d : nat) (h imm : Z) | NRot32 (d : nat) (imm : Z) | NTrn (a b : nat) | NSwp (a : nat) (ha : Z) (b : nat) (hb : Z)
  | AMov (d s : agp) | AMovI (d : agp) (imm : Z) | AAdd (d s : agp) (o : aoff) | ASub (d s : agp) (imm : Z)
  | ASubs (d s : agp) (imm : Z) | ACmp (a : agp) (imm : Z) | ALsl (d s : agp) (imm : Z) | AMul (d s : agp)
  | ABr (c : acond) (target : nat).

(* Z, and N = V *)
Record aflags := mk_af { f_eq : bool; f_ge : bool }.
Definition acond_holds (c : acond) (f : aflags) : bool :=
  match c with CAL => true | CEQ => f_eq f | CNE => negb (f_eq f) | CGE => f_ge f end.
Record astate := mk_as { as_v : list reg; as_g : agprs; as_f : aflags; as_dst : mem; as_loc : mem }.
Definition avget (s : astate) (i : nat) : reg := nth i (as_v s) 0.
Definition avset (s : astate) (i : nat) (v : reg) : astate :=
  mk_as (set_nth (as_v s) i v) (as_g s) (as_f s) (as_dst s) (as_loc s).
Definition agset (s : astate) (x : agp) (v : Z) : astate :=
  mk_as (as_v s) (aset (as_g s) x v) (as_f s) (as_dst s) (as_loc s).
Definition afset (s : astate) (f : aflags) : astate := mk_as (as_v s) (as_g s) f (as_dst s) (as_loc s).
Definition amem (s : astate) (sp : aspace) : mem := match sp with SDst => as_dst s | SLoc => as_loc s end.
Definition amset (s : astate) (sp : aspace) (m : mem) : astate :=
  match sp with
  | SDst => mk_as (as_v s) (as_g s) (as_f s) m (as_loc s)
  | SLoc => mk_as (as_v s) (as_g s) (as_f s) (as_dst s) m
  end.
(* 8 dwords at a byte address *)
Definition load8w (m : mem) (a : Z) : option (list Z) := check (a mod 4 =? 0); load_cells m (a / 4) 8.
Definition store8w (m : mem) (a : Z) (l : list Z) : option mem := check (a mod 4 =? 0); store_cells m (a / 4) l.

(* one instruction: next position and state *)
Definition astep (lhs rhs : mem) (i : aop) (pc : nat) (s : astate) : option (nat * astate) :=
  let g := as_g s in
  let v := avget s in
  let blk b := match b with ALhs => lhs | _ => rhs end in
  match i with
  | NLd8 z d h b disp post =>
      let* l := load_cells (blk b) (aget g b + disp) 8 in
      Some (S pc, agset (avset s d (v_set8 z (v d) h l)) b (aget g b + post))
  | NLd16 d b post =>
      let* l := load_cells (blk b) (aget g b) 16 in
      Some (S pc, agset (avset s d (vec_of 16 8 l)) b (aget g b + post))
  | NLdW sp d b post =>
      let* x := v_load 4 (amem s sp) (aget g b) in Some (S pc, agset (avset s d x) b (aget g b + aoff_of g post))
  | NStW sp r b post =>
      let* m := v_store 4 (amem s sp) (aget g b) (v r) in Some (S pc, agset (amset s sp m) b (aget g b + aoff_of g post))
  | NLd4 h d0 d1 d2 d3 b post =>
      let* l := load8w (as_loc s) (aget g b) in
      let s := avset s d0 (v_put2 (v d0) h (nth 0 l 0) (nth 4 l 0)) in
      let s := avset s d1 (v_put2 (v d1) h (nth 1 l 0) (nth 5 l 0)) in
      let s := avset s d2 (v_put2 (v d2) h (nth 2 l 0) (nth 6 l 0)) in
      let s := avset s d3 (v_put2 (v d3) h (nth 3 l 0) (nth 7 l 0)) in
      Some (S pc, agset s b (aget g b + post))
  | NSt4 h s0 s1 s2 s3 b post =>
      let* m := store8w (as_loc s) (aget g b) (v_words4 h (v s0) (v s1) (v s2) (v s3)) in
      Some (S pc, agset (amset s SLoc m) b (aget g b + post))
  | NZero d => Some (S pc, avset s d 0)
  | NMovQ d n => Some (S pc, avset s d (v n))
  | NMovl d n h => Some (S pc, avset s d (v_movl (v n) h))
  | NMlal16 d n h m idx => Some (S pc, avset s d (v_mlal16 (v d) (v n) h (v m) idx))
  | NMull8 d n hn m hm => Some (S pc, avset s d (v_mull8 (v n) hn (v m) hm))
  | NMlal8 d n hn m hm => Some (S pc, avset s d (v_mlal8 (v d) (v n) hn (v m) hm))
  | NMlalU8 d n hn m hm => Some (S pc, avset s d (v_mlalu8 (v d) (v n) hn (v m) hm))
  | NPadal d n => Some (S pc, avset s d (v_padal (v d) (v n)))
  | NPadalU d n => Some (S pc, avset s d (v_padalu (v d) (v n)))
  | NAddp d n m => Some (S pc, avset s d (v_addp (v n) (v m)))
  | NPaddD d h n hn m hm => Some (S pc, avset s d (v_paddD (v d) h (v n) hn (v m) hm))
  | NAddQ d n m => Some (S pc, avset s d (v_paddd 4 (v n) (v m)))
  | NUdot d n m idx => Some (S pc, avset s d (v_udot (v d) (v n) (v m) idx))
  | NRot8 d h imm => Some (S pc, avset s d (v_rot8 (v d) h imm))
  | NRot32 d imm => Some (S pc, avset s d (v_rot32 (v d) imm))
  | NTrn a b => Some (S pc, avset (avset s a (v_trn1 (v a) (v b))) b (v_trn2 (v a) (v b)))
  | NSwp a ha b hb => Some (S pc, avset (avset s a (v_put (v a) ha (v b) hb)) b (v_put (v b) hb (v a) ha))
  | AMov d x => Some (S pc, agset s d (aget g x))
  | AMovI d imm => Some (S pc, agset s d imm)
  | AAdd d x o => Some (S pc, agset s d (aget g x + aoff_of g o))
  | ASub d x imm => Some (S pc, agset s d (aget g x - imm))
  | ASubs d x imm =>
      Some (S pc, afset (agset s d (aget g x - imm)) (mk_af (aget g x - imm =? 0) (imm <=? aget g x)))
  | ACmp x imm => Some (S pc, afset s (mk_af (aget g x - imm =? 0) (imm <=? aget g x)))
  | ALsl d x imm => Some (S pc, agset s d (aget g x * 2 ^ imm))
  | AMul d x => Some (S pc, agset s d (aget g d * aget g x))
  | ABr c t => Some (if acond_holds c (as_f s) then t else S pc, s)
  end.
(* until the end of the list; None when an access fails or the fuel runs out *)
Fixpoint aexec (fuel : nat) (lhs rhs : mem) (prog : list aop) (pc : nat) (s : astate) : option astate :=
  match nth_error prog pc with
  | None => Some s
  | Some i =>
      match fuel with
      | O => None
      | S f => let* ps := astep lhs rhs i pc s in aexec f lhs rhs prog (fst ps) (snd ps)
      end
  end.

(* Run of the kernels: kernel_neon.h 41-270, 305-660, 681-925, 957-1275,
   1298-1610, 1664-1900.  The initial contents of the registers and of the local
   array are arbitrary; the row stride is checked where the source asserts it
   (chk); the fuel suffices for every run. *)
Definition arm_Run (chk : bool) (prog : list aop) (junk : list reg) (t0 t1 : Z) (fl : aflags) (loc : mem)
    (result : mem) (dst_ptr rs cs : Z) (lhs : mem) (lhs_ptr : Z) (rhs : mem) (rhs_ptr start run : Z) : option mem :=
  check (negb chk || (rs =? 1));
  let s := mk_as junk (mk_ag lhs_ptr rhs_ptr (4 * dst_ptr) run start cs t0 t1) fl result loc in
  let* s := aexec (Z.to_nat (300 * (run + 3))) lhs rhs prog 0 s in
  Some (as_dst s).

(* The .word encodings of the dotprod kernel: UDOT (by element) on 16 bytes is
   0 1 1 01111 10 L M Rm(4) 1110 H 0 Rn(5) Rd(5), the second source being M:Rm
   and the index H:L *)
Definition udot_of_word (w : Z) : option aop :=
  let bits lo n := Z.land (Z.shiftr w lo) (2 ^ n - 1) in
  check (bits 22 10 =? 446) && (bits 12 4 =? 14) && (bits 10 1 =? 0);
  Some (NUdot (Z.to_nat (bits 0 5)) (Z.to_nat (bits 5 5)) (Z.to_nat (bits 16 5)) (2 * bits 11 1 + bits 21 1)).
