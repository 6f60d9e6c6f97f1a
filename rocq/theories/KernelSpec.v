(* KernelSpec.v: what a kernel's Run must do (kernel.h 213-227 gives only the
   signature).  The GEMM theorems assume it of the kernel in use; the reference
   kernel is proved to satisfy it. *)
From Verif Require Import Base CommonModel PackModel ComputeModel GemmSpec.
From Verif Require Export PackSpec.

(* the packed run at [p] of memory [b] holds the operand A (width w, depth d) *)
Definition holds_run (f : side_fmt) (b : mem) (p run : Z) (A : Z -> Z -> Z) : Prop :=
  forall w d, 0 <= w < sf_width f -> 0 <= d < run ->
    exists x, b (p + run_index f w d) = Some x /\ 0 <= x < 256 /\
      operand_value (sf_signed f) x = A w d.

(* dst(r,c) becomes (or is increased by) the dot product, modulo 2^32, and
   nothing else changes.  The packed data reaches to the next multiple of the
   register size (pack.h fills it with zeros), and kernels do read beyond run:
   the value is specified for the rows and columns whose padding is zero; the
   others hold whatever was in the buffers.  ok is what the kernel
   requires of the pairs of values it multiplies.  The destination is column-major (row stride 1), as asserted
   by the kernels and as Compute calls them, and run is positive.  In Trap mode
   the kernel may assume that 255*255 per depth level stays within int32 on top
   of the old value, and must not exceed it. *)
Definition kernel_run_correct (ok : Z -> Z -> Prop) (m : ovf) (K : kernel)
    (result : mem) (dst cs : Z) (lhs : mem) (lp : Z) (rhs : mem) (rp start run : Z) (A B old : Z -> Z -> Z) : Prop :=
  let k := k_fmt K in
    0 <= start -> 0 < run -> (kDepth k | run) ->
    (forall r c r' c', 0 <= r < kRows k -> 0 <= c < kCols k -> 0 <= r' < kRows k -> 0 <= c' < kCols k ->
       r * 1 + c * cs = r' * 1 + c' * cs -> r = r' /\ c = c') ->
    holds_run (kf_lhs k) lhs lp (RoundUp (kf_reg k) run) A ->
    holds_run (kf_rhs k) rhs rp (RoundUp (kf_reg k) run) B ->
    (forall r c, 0 <= r < kRows k -> 0 <= c < kCols k ->
       result (dst + (r * 1 + c * cs)) = Some (old r c)) ->
    (m = Wrap \/ (255 * 255 * RoundUp (kf_reg k) run <= 2 ^ 31 - 1 /\
       (start = 0 \/ forall r c, 0 <= r < kRows k -> 0 <= c < kCols k ->
          Z.abs (old r c) + 255 * 255 * RoundUp (kf_reg k) run <= 2 ^ 31 - 1))) ->
    exists result',
      k_run K result dst 1 cs lhs lp rhs rp start run = Some result' /\
      (forall r c, 0 <= r < kRows k -> 0 <= c < kCols k ->
         exists v, result' (dst + (r * 1 + c * cs)) = Some v /\
           (m = Wrap \/ Z.abs v <= (if start =? 0 then 0 else Z.abs (old r c)) + 255 * 255 * RoundUp (kf_reg k) run) /\
           ((forall d, 0 <= d < run -> ok (A r d) (B c d)) ->
            (forall d, run <= d < RoundUp (kf_reg k) run -> A r d = 0 /\ B c d = 0) ->
            v = wrapS 32 ((if start =? 0 then 0 else old r c) + sumZ (fun d => A r d * B c d) 0 run))) /\
      (forall a, (forall r c, 0 <= r < kRows k -> 0 <= c < kCols k -> a <> dst + (r * 1 + c * cs)) ->
         result' a = result a).
(* on every run *)
Definition kernel_correct_on (ok : Z -> Z -> Prop) (m : ovf) (K : kernel) : Prop :=
  forall result dst cs lhs lp rhs rp start run A B old,
    kernel_run_correct ok m K result dst cs lhs lp rhs rp start run A B old.
(* on every run behind which n more bytes of the rhs can be read, whatever they are *)
Definition kernel_correct_behind (n : Z) (ok : Z -> Z -> Prop) (m : ovf) (K : kernel) : Prop :=
  forall result dst cs lhs lp rhs rp start run A B old,
    (forall j, 0 <= j < n -> rhs (rp + kCols (k_fmt K) * RoundUp (kf_reg (k_fmt K)) run + j) <> None) ->
    kernel_run_correct ok m K result dst cs lhs lp rhs rp start run A B old.
(* both operands are packed as the kernel expects *)
Definition packs_correct (m : ovf) (K : kernel) : Prop :=
  let k := k_fmt K in
  pack_correct m (kf_lhs k) (kf_reg k) (k_pack K m (kf_lhs k) (kf_reg k)) /\
  pack_correct m (kf_rhs k) (kf_reg k) (k_pack K m (kf_rhs k) (kf_reg k)).
(* as Compute calls the kernel: at least the 64 bytes of the sums are behind the
   packed bytes (block_view) *)
Definition kernel_usable_on (ok : Z -> Z -> Prop) (m : ovf) (K : kernel) : Prop := kernel_correct_behind 64 ok m K.
(* kernels that accept every value *)
Definition kernel_usable (m : ovf) (K : kernel) : Prop := kernel_usable_on (fun _ _ => True) m K.
Definition kernel_correct (m : ovf) (K : kernel) : Prop := kernel_correct_on (fun _ _ => True) m K.
