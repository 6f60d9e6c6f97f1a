(* TransformKernels32.v: the straight-line pieces of the inline assembly of
   meta/transform_kernels_arm_32.h, one constructor per instruction, in the order
   of the source.  Generated by tools/gen_transform.py, which also checks that the
   instructions around the pieces are those described in TransformModel.v. *)
From Verif Require Import Base TransformModel.

(* transform_kernels_arm_32.h 27 *)
Definition Requantize32_pre : list instr :=
  [Dup 4 4 P_input_range_min; Dup 5 4 P_output_range_min; Dup 6 4 P_input_range_offset; Dup 7 4 P_input_range_scale;
   Dup 8 4 P_one_over_output_range_scale; Fsub 4 4 5].
(* transform_kernels_arm_32.h 27 *)
Definition Requantize32_body : list instr :=
  [Ld (SLane 0 8 0); Ld (SLane 0 8 1); Ld (SLane 1 8 0); Ld (SLane 1 8 1); Ld (SLane 2 8 0); Ld (SLane 2 8 1);
   Ld (SLane 3 8 0); Ld (SLane 3 8 1); Scvtf 0 0; Scvtf 1 1; Scvtf 2 2; Scvtf 3 3; Fsub 0 0 6; Fsub 1 1 6;
   Fsub 2 2 6; Fsub 3 3 6; Fmul 0 0 7; Fmul 1 1 7; Fmul 2 2 7; Fmul 3 3 7; Fadd 0 0 4; Fadd 1 1 4; Fadd 2 2 4;
   Fadd 3 3 4; Fmul 0 0 8; Fmul 1 1 8; Fmul 2 2 8; Fmul 3 3 8; Fcvtzs 0 0; Fcvtzs 1 1; Fcvtzs 2 2; Fcvtzs 3 3;
   SqxtnD 0 0; Sqxtn2 0 1; SqxtnD 2 2; Sqxtn2 2 3; SqxtunD 0 0; Sqxtun2 0 2; St (SLane 0 8 0); St (SLane 0 8 1)].
(* transform_kernels_arm_32.h 102 *)
Definition Requantize32_post1 : list instr :=
  [Ld (SLane 0 4 0); Scvtf 0 0; Fsub 0 0 6; Fmul 0 0 7; Fadd 0 0 4; Fmul 0 0 8; Fcvtzs 0 0; SqxtnD 0 0; SqxtunD 0 0;
   St (SLane 0 1 0)].
(* transform_kernels_arm_32.h 199 *)
Definition Requantize32_post2 : list instr :=
  [Ld (SLane 0 8 0); Scvtf 0 0; Fsub 0 0 6; Fmul 0 0 7; Fadd 0 0 4; Fmul 0 0 8; Fcvtzs 0 0; SqxtnD 0 0; SqxtunD 0 0;
   St (SLane 0 2 0)].
(* transform_kernels_arm_32.h 296 *)
Definition Requantize32_post3 : list instr :=
  [Ld (SLane 0 8 0); Ld (SLane 0 4 2); Scvtf 0 0; Fsub 0 0 6; Fmul 0 0 7; Fadd 0 0 4; Fmul 0 0 8; Fcvtzs 0 0;
   SqxtnD 0 0; SqxtunD 0 0; St (SLane 0 2 0); St (SLane 0 1 2)].
(* transform_kernels_arm_32.h 395 *)
Definition Requantize32_post4 : list instr :=
  [Ld (SLane 0 8 0); Ld (SLane 0 8 1); Scvtf 0 0; Fsub 0 0 6; Fmul 0 0 7; Fadd 0 0 4; Fmul 0 0 8; Fcvtzs 0 0;
   SqxtnD 0 0; SqxtunD 0 0; St (SLane 0 4 0)].
(* transform_kernels_arm_32.h 492 *)
Definition Requantize32_post5 : list instr :=
  [Ld (SLane 0 8 0); Ld (SLane 0 8 1); Ld (SLane 1 4 0); Scvtf 0 0; Scvtf 1 1; Fsub 0 0 6; Fsub 1 1 6; Fmul 0 0 7;
   Fmul 1 1 7; Fadd 0 0 4; Fadd 1 1 4; Fmul 0 0 8; Fmul 1 1 8; Fcvtzs 0 0; Fcvtzs 1 1; SqxtnD 0 0; Sqxtn2 0 1;
   SqxtunD 0 0; St (SLane 0 4 0); St (SLane 0 1 4)].
(* transform_kernels_arm_32.h 598 *)
Definition Requantize32_post6 : list instr :=
  [Ld (SLane 0 8 0); Ld (SLane 0 8 1); Ld (SLane 1 8 0); Scvtf 0 0; Scvtf 1 1; Fsub 0 0 6; Fsub 1 1 6; Fmul 0 0 7;
   Fmul 1 1 7; Fadd 0 0 4; Fadd 1 1 4; Fmul 0 0 8; Fmul 1 1 8; Fcvtzs 0 0; Fcvtzs 1 1; SqxtnD 0 0; Sqxtn2 0 1;
   SqxtunD 0 0; St (SLane 0 4 0); St (SLane 0 2 2)].
(* transform_kernels_arm_32.h 703 *)
Definition Requantize32_post7 : list instr :=
  [Ld (SLane 0 8 0); Ld (SLane 0 8 1); Ld (SLane 1 8 0); Ld (SLane 1 4 2); Scvtf 0 0; Scvtf 1 1; Fsub 0 0 6;
   Fsub 1 1 6; Fmul 0 0 7; Fmul 1 1 7; Fadd 0 0 4; Fadd 1 1 4; Fmul 0 0 8; Fmul 1 1 8; Fcvtzs 0 0; Fcvtzs 1 1;
   SqxtnD 0 0; Sqxtn2 0 1; SqxtunD 0 0; St (SLane 0 4 0); St (SLane 0 2 2); St (SLane 0 1 6)].
(* transform_kernels_arm_32.h 810 *)
Definition Requantize32_post8 : list instr :=
  [Ld (SLane 0 8 0); Ld (SLane 0 8 1); Ld (SLane 1 8 0); Ld (SLane 1 8 1); Scvtf 0 0; Scvtf 1 1; Fsub 0 0 6;
   Fsub 1 1 6; Fmul 0 0 7; Fmul 1 1 7; Fadd 0 0 4; Fadd 1 1 4; Fmul 0 0 8; Fmul 1 1 8; Fcvtzs 0 0; Fcvtzs 1 1;
   SqxtnD 0 0; Sqxtn2 0 1; SqxtunD 0 0; St (SLane 0 8 0)].
(* transform_kernels_arm_32.h 914 *)
Definition Requantize32_post9 : list instr :=
  [Ld (SLane 0 8 0); Ld (SLane 0 8 1); Ld (SLane 1 8 0); Ld (SLane 1 8 1); Ld (SLane 2 4 0); Scvtf 0 0; Scvtf 1 1;
   Scvtf 2 2; Fsub 0 0 6; Fsub 1 1 6; Fsub 2 2 6; Fmul 0 0 7; Fmul 1 1 7; Fmul 2 2 7; Fadd 0 0 4; Fadd 1 1 4;
   Fadd 2 2 4; Fmul 0 0 8; Fmul 1 1 8; Fmul 2 2 8; Fcvtzs 0 0; Fcvtzs 1 1; Fcvtzs 2 2; SqxtnD 0 0; Sqxtn2 0 1;
   SqxtnD 2 2; SqxtunD 0 0; Sqxtun2 0 2; St (SLane 0 8 0); St (SLane 0 1 8)].
(* transform_kernels_arm_32.h 1028 *)
Definition Requantize32_post10 : list instr :=
  [Ld (SLane 0 8 0); Ld (SLane 0 8 1); Ld (SLane 1 8 0); Ld (SLane 1 8 1); Ld (SLane 2 8 0); Scvtf 0 0; Scvtf 1 1;
   Scvtf 2 2; Fsub 0 0 6; Fsub 1 1 6; Fsub 2 2 6; Fmul 0 0 7; Fmul 1 1 7; Fmul 2 2 7; Fadd 0 0 4; Fadd 1 1 4;
   Fadd 2 2 4; Fmul 0 0 8; Fmul 1 1 8; Fmul 2 2 8; Fcvtzs 0 0; Fcvtzs 1 1; Fcvtzs 2 2; SqxtnD 0 0; Sqxtn2 0 1;
   SqxtnD 2 2; SqxtunD 0 0; Sqxtun2 0 2; St (SLane 0 8 0); St (SLane 0 2 4)].
(* transform_kernels_arm_32.h 1142 *)
Definition Requantize32_post11 : list instr :=
  [Ld (SLane 0 8 0); Ld (SLane 0 8 1); Ld (SLane 1 8 0); Ld (SLane 1 8 1); Ld (SLane 2 8 0); Ld (SLane 2 4 2);
   Scvtf 0 0; Scvtf 1 1; Scvtf 2 2; Fsub 0 0 6; Fsub 1 1 6; Fsub 2 2 6; Fmul 0 0 7; Fmul 1 1 7; Fmul 2 2 7;
   Fadd 0 0 4; Fadd 1 1 4; Fadd 2 2 4; Fmul 0 0 8; Fmul 1 1 8; Fmul 2 2 8; Fcvtzs 0 0; Fcvtzs 1 1; Fcvtzs 2 2;
   SqxtnD 0 0; Sqxtn2 0 1; SqxtnD 2 2; SqxtunD 0 0; Sqxtun2 0 2; St (SLane 0 8 0); St (SLane 0 2 4); St (SLane 0 1 10)].
(* transform_kernels_arm_32.h 1258 *)
Definition Requantize32_post12 : list instr :=
  [Ld (SLane 0 8 0); Ld (SLane 0 8 1); Ld (SLane 1 8 0); Ld (SLane 1 8 1); Ld (SLane 2 8 0); Ld (SLane 2 8 1);
   Scvtf 0 0; Scvtf 1 1; Scvtf 2 2; Fsub 0 0 6; Fsub 1 1 6; Fsub 2 2 6; Fmul 0 0 7; Fmul 1 1 7; Fmul 2 2 7;
   Fadd 0 0 4; Fadd 1 1 4; Fadd 2 2 4; Fmul 0 0 8; Fmul 1 1 8; Fmul 2 2 8; Fcvtzs 0 0; Fcvtzs 1 1; Fcvtzs 2 2;
   SqxtnD 0 0; Sqxtn2 0 1; SqxtnD 2 2; SqxtunD 0 0; Sqxtun2 0 2; St (SLane 0 8 0); St (SLane 0 4 2)].
(* transform_kernels_arm_32.h 1372 *)
Definition Requantize32_post13 : list instr :=
  [Ld (SLane 0 8 0); Ld (SLane 0 8 1); Ld (SLane 1 8 0); Ld (SLane 1 8 1); Ld (SLane 2 8 0); Ld (SLane 2 8 1);
   Ld (SLane 3 4 0); Scvtf 0 0; Scvtf 1 1; Scvtf 2 2; Scvtf 3 3; Fsub 0 0 6; Fsub 1 1 6; Fsub 2 2 6; Fsub 3 3 6;
   Fmul 0 0 7; Fmul 1 1 7; Fmul 2 2 7; Fmul 3 3 7; Fadd 0 0 4; Fadd 1 1 4; Fadd 2 2 4; Fadd 3 3 4; Fmul 0 0 8;
   Fmul 1 1 8; Fmul 2 2 8; Fmul 3 3 8; Fcvtzs 0 0; Fcvtzs 1 1; Fcvtzs 2 2; Fcvtzs 3 3; SqxtnD 0 0; Sqxtn2 0 1;
   SqxtnD 2 2; Sqxtn2 2 3; SqxtunD 0 0; Sqxtun2 0 2; St (SLane 0 8 0); St (SLane 0 4 2); St (SLane 0 1 12)].
(* transform_kernels_arm_32.h 1495 *)
Definition Requantize32_post14 : list instr :=
  [Ld (SLane 0 8 0); Ld (SLane 0 8 1); Ld (SLane 1 8 0); Ld (SLane 1 8 1); Ld (SLane 2 8 0); Ld (SLane 2 8 1);
   Ld (SLane 3 8 0); Scvtf 0 0; Scvtf 1 1; Scvtf 2 2; Scvtf 3 3; Fsub 0 0 6; Fsub 1 1 6; Fsub 2 2 6; Fsub 3 3 6;
   Fmul 0 0 7; Fmul 1 1 7; Fmul 2 2 7; Fmul 3 3 7; Fadd 0 0 4; Fadd 1 1 4; Fadd 2 2 4; Fadd 3 3 4; Fmul 0 0 8;
   Fmul 1 1 8; Fmul 2 2 8; Fmul 3 3 8; Fcvtzs 0 0; Fcvtzs 1 1; Fcvtzs 2 2; Fcvtzs 3 3; SqxtnD 0 0; Sqxtn2 0 1;
   SqxtnD 2 2; Sqxtn2 2 3; SqxtunD 0 0; Sqxtun2 0 2; St (SLane 0 8 0); St (SLane 0 4 2); St (SLane 0 2 6)].
(* transform_kernels_arm_32.h 1617 *)
Definition Requantize32_post15 : list instr :=
  [Ld (SLane 0 8 0); Ld (SLane 0 8 1); Ld (SLane 1 8 0); Ld (SLane 1 8 1); Ld (SLane 2 8 0); Ld (SLane 2 8 1);
   Ld (SLane 3 8 0); Ld (SLane 3 4 2); Scvtf 0 0; Scvtf 1 1; Scvtf 2 2; Scvtf 3 3; Fsub 0 0 6; Fsub 1 1 6;
   Fsub 2 2 6; Fsub 3 3 6; Fmul 0 0 7; Fmul 1 1 7; Fmul 2 2 7; Fmul 3 3 7; Fadd 0 0 4; Fadd 1 1 4; Fadd 2 2 4;
   Fadd 3 3 4; Fmul 0 0 8; Fmul 1 1 8; Fmul 2 2 8; Fmul 3 3 8; Fcvtzs 0 0; Fcvtzs 1 1; Fcvtzs 2 2; Fcvtzs 3 3;
   SqxtnD 0 0; Sqxtn2 0 1; SqxtnD 2 2; Sqxtn2 2 3; SqxtunD 0 0; Sqxtun2 0 2; St (SLane 0 8 0); St (SLane 0 4 2);
   St (SLane 0 2 6); St (SLane 0 1 14)].
Definition Requantize32_post (l : Z) : list instr :=
  match l with
  | 1 => Requantize32_post1
  | 2 => Requantize32_post2
  | 3 => Requantize32_post3
  | 4 => Requantize32_post4
  | 5 => Requantize32_post5
  | 6 => Requantize32_post6
  | 7 => Requantize32_post7
  | 8 => Requantize32_post8
  | 9 => Requantize32_post9
  | 10 => Requantize32_post10
  | 11 => Requantize32_post11
  | 12 => Requantize32_post12
  | 13 => Requantize32_post13
  | 14 => Requantize32_post14
  | 15 => Requantize32_post15
  | _ => []
  end.

(* transform_kernels_arm_32.h 1741 *)
Definition Quantize32_pre : list instr :=
  [Dup 4 4 P_range_min; Dup 5 4 P_range_offset; Dup 6 4 P_range_scale].
(* transform_kernels_arm_32.h 1741 *)
Definition Quantize32_body : list instr :=
  [Ld (SLane 0 8 0); Ld (SLane 0 8 1); Ld (SLane 1 8 0); Ld (SLane 1 8 1); Ld (SLane 2 8 0); Ld (SLane 2 8 1);
   Ld (SLane 3 8 0); Ld (SLane 3 8 1); Fsub 0 0 4; Fsub 1 1 4; Fsub 2 2 4; Fsub 3 3 4; Fmul 0 0 6; Fmul 1 1 6;
   Fmul 2 2 6; Fmul 3 3 6; Fadd 0 0 5; Fadd 1 1 5; Fadd 2 2 5; Fadd 3 3 5; Fcvtzs 0 0; Fcvtzs 1 1; Fcvtzs 2 2;
   Fcvtzs 3 3; SqxtnD 0 0; Sqxtn2 0 1; SqxtnD 2 2; Sqxtn2 2 3; SqxtunD 0 0; Sqxtun2 0 2; St (SLane 0 8 0);
   St (SLane 0 8 1)].
(* transform_kernels_arm_32.h 1802 *)
Definition Quantize32_post1 : list instr :=
  [Ld (SLane 0 4 0); Fsub 0 0 4; Fmul 0 0 6; Fadd 0 0 5; Fcvtzs 0 0; SqxtnD 0 0; SqxtunD 0 0; St (SLane 0 1 0)].
(* transform_kernels_arm_32.h 1883 *)
Definition Quantize32_post2 : list instr :=
  [Ld (SLane 0 8 0); Fsub 0 0 4; Fmul 0 0 6; Fadd 0 0 5; Fcvtzs 0 0; SqxtnD 0 0; SqxtunD 0 0; St (SLane 0 2 0)].
(* transform_kernels_arm_32.h 1964 *)
Definition Quantize32_post3 : list instr :=
  [Ld (SLane 0 8 0); Ld (SLane 0 4 2); Fsub 0 0 4; Fmul 0 0 6; Fadd 0 0 5; Fcvtzs 0 0; SqxtnD 0 0; SqxtunD 0 0;
   St (SLane 0 2 0); St (SLane 0 1 2)].
(* transform_kernels_arm_32.h 2047 *)
Definition Quantize32_post4 : list instr :=
  [Ld (SLane 0 8 0); Ld (SLane 0 8 1); Fsub 0 0 4; Fmul 0 0 6; Fadd 0 0 5; Fcvtzs 0 0; SqxtnD 0 0; SqxtunD 0 0;
   St (SLane 0 4 0)].
(* transform_kernels_arm_32.h 2128 *)
Definition Quantize32_post5 : list instr :=
  [Ld (SLane 0 8 0); Ld (SLane 0 8 1); Ld (SLane 1 4 0); Fsub 0 0 4; Fsub 1 1 4; Fmul 0 0 6; Fmul 1 1 6; Fadd 0 0 5;
   Fadd 1 1 5; Fcvtzs 0 0; Fcvtzs 1 1; SqxtnD 0 0; Sqxtn2 0 1; SqxtunD 0 0; St (SLane 0 4 0); St (SLane 0 1 4)].
(* transform_kernels_arm_32.h 2216 *)
Definition Quantize32_post6 : list instr :=
  [Ld (SLane 0 8 0); Ld (SLane 0 8 1); Ld (SLane 1 8 0); Fsub 0 0 4; Fsub 1 1 4; Fmul 0 0 6; Fmul 1 1 6; Fadd 0 0 5;
   Fadd 1 1 5; Fcvtzs 0 0; Fcvtzs 1 1; SqxtnD 0 0; Sqxtn2 0 1; SqxtunD 0 0; St (SLane 0 4 0); St (SLane 0 2 2)].
(* transform_kernels_arm_32.h 2303 *)
Definition Quantize32_post7 : list instr :=
  [Ld (SLane 0 8 0); Ld (SLane 0 8 1); Ld (SLane 1 8 0); Ld (SLane 1 4 2); Fsub 0 0 4; Fsub 1 1 4; Fmul 0 0 6;
   Fmul 1 1 6; Fadd 0 0 5; Fadd 1 1 5; Fcvtzs 0 0; Fcvtzs 1 1; SqxtnD 0 0; Sqxtn2 0 1; SqxtunD 0 0; St (SLane 0 4 0);
   St (SLane 0 2 2); St (SLane 0 1 6)].
(* transform_kernels_arm_32.h 2392 *)
Definition Quantize32_post8 : list instr :=
  [Ld (SLane 0 8 0); Ld (SLane 0 8 1); Ld (SLane 1 8 0); Ld (SLane 1 8 1); Fsub 0 0 4; Fsub 1 1 4; Fmul 0 0 6;
   Fmul 1 1 6; Fadd 0 0 5; Fadd 1 1 5; Fcvtzs 0 0; Fcvtzs 1 1; SqxtnD 0 0; Sqxtn2 0 1; SqxtunD 0 0; St (SLane 0 8 0)].
(* transform_kernels_arm_32.h 2478 *)
Definition Quantize32_post9 : list instr :=
  [Ld (SLane 0 8 0); Ld (SLane 0 8 1); Ld (SLane 1 8 0); Ld (SLane 1 8 1); Ld (SLane 2 4 0); Fsub 0 0 4; Fsub 1 1 4;
   Fsub 2 2 4; Fmul 0 0 6; Fmul 1 1 6; Fmul 2 2 6; Fadd 0 0 5; Fadd 1 1 5; Fadd 2 2 5; Fcvtzs 0 0; Fcvtzs 1 1;
   Fcvtzs 2 2; SqxtnD 0 0; Sqxtn2 0 1; SqxtnD 2 2; SqxtunD 0 0; Sqxtun2 0 2; St (SLane 0 8 0); St (SLane 0 1 8)].
(* transform_kernels_arm_32.h 2572 *)
Definition Quantize32_post10 : list instr :=
  [Ld (SLane 0 8 0); Ld (SLane 0 8 1); Ld (SLane 1 8 0); Ld (SLane 1 8 1); Ld (SLane 2 8 0); Fsub 0 0 4; Fsub 1 1 4;
   Fsub 2 2 4; Fmul 0 0 6; Fmul 1 1 6; Fmul 2 2 6; Fadd 0 0 5; Fadd 1 1 5; Fadd 2 2 5; Fcvtzs 0 0; Fcvtzs 1 1;
   Fcvtzs 2 2; SqxtnD 0 0; Sqxtn2 0 1; SqxtnD 2 2; SqxtunD 0 0; Sqxtun2 0 2; St (SLane 0 8 0); St (SLane 0 2 4)].
(* transform_kernels_arm_32.h 2666 *)
Definition Quantize32_post11 : list instr :=
  [Ld (SLane 0 8 0); Ld (SLane 0 8 1); Ld (SLane 1 8 0); Ld (SLane 1 8 1); Ld (SLane 2 8 0); Ld (SLane 2 4 2);
   Fsub 0 0 4; Fsub 1 1 4; Fsub 2 2 4; Fmul 0 0 6; Fmul 1 1 6; Fmul 2 2 6; Fadd 0 0 5; Fadd 1 1 5; Fadd 2 2 5;
   Fcvtzs 0 0; Fcvtzs 1 1; Fcvtzs 2 2; SqxtnD 0 0; Sqxtn2 0 1; SqxtnD 2 2; SqxtunD 0 0; Sqxtun2 0 2;
   St (SLane 0 8 0); St (SLane 0 2 4); St (SLane 0 1 10)].
(* transform_kernels_arm_32.h 2762 *)
Definition Quantize32_post12 : list instr :=
  [Ld (SLane 0 8 0); Ld (SLane 0 8 1); Ld (SLane 1 8 0); Ld (SLane 1 8 1); Ld (SLane 2 8 0); Ld (SLane 2 8 1);
   Fsub 0 0 4; Fsub 1 1 4; Fsub 2 2 4; Fmul 0 0 6; Fmul 1 1 6; Fmul 2 2 6; Fadd 0 0 5; Fadd 1 1 5; Fadd 2 2 5;
   Fcvtzs 0 0; Fcvtzs 1 1; Fcvtzs 2 2; SqxtnD 0 0; Sqxtn2 0 1; SqxtnD 2 2; SqxtunD 0 0; Sqxtun2 0 2;
   St (SLane 0 8 0); St (SLane 0 4 2)].
(* transform_kernels_arm_32.h 2856 *)
Definition Quantize32_post13 : list instr :=
  [Ld (SLane 0 8 0); Ld (SLane 0 8 1); Ld (SLane 1 8 0); Ld (SLane 1 8 1); Ld (SLane 2 8 0); Ld (SLane 2 8 1);
   Ld (SLane 3 4 0); Fsub 0 0 4; Fsub 1 1 4; Fsub 2 2 4; Fsub 3 3 4; Fmul 0 0 6; Fmul 1 1 6; Fmul 2 2 6; Fmul 3 3 6;
   Fadd 0 0 5; Fadd 1 1 5; Fadd 2 2 5; Fadd 3 3 5; Fcvtzs 0 0; Fcvtzs 1 1; Fcvtzs 2 2; Fcvtzs 3 3; SqxtnD 0 0;
   Sqxtn2 0 1; SqxtnD 2 2; Sqxtn2 2 3; SqxtunD 0 0; Sqxtun2 0 2; St (SLane 0 8 0); St (SLane 0 4 2); St (SLane 0 1 12)].
(* transform_kernels_arm_32.h 2957 *)
Definition Quantize32_post14 : list instr :=
  [Ld (SLane 0 8 0); Ld (SLane 0 8 1); Ld (SLane 1 8 0); Ld (SLane 1 8 1); Ld (SLane 2 8 0); Ld (SLane 2 8 1);
   Ld (SLane 3 8 0); Fsub 0 0 4; Fsub 1 1 4; Fsub 2 2 4; Fsub 3 3 4; Fmul 0 0 6; Fmul 1 1 6; Fmul 2 2 6; Fmul 3 3 6;
   Fadd 0 0 5; Fadd 1 1 5; Fadd 2 2 5; Fadd 3 3 5; Fcvtzs 0 0; Fcvtzs 1 1; Fcvtzs 2 2; Fcvtzs 3 3; SqxtnD 0 0;
   Sqxtn2 0 1; SqxtnD 2 2; Sqxtn2 2 3; SqxtunD 0 0; Sqxtun2 0 2; St (SLane 0 8 0); St (SLane 0 4 2); St (SLane 0 2 6)].
(* transform_kernels_arm_32.h 3057 *)
Definition Quantize32_post15 : list instr :=
  [Ld (SLane 0 8 0); Ld (SLane 0 8 1); Ld (SLane 1 8 0); Ld (SLane 1 8 1); Ld (SLane 2 8 0); Ld (SLane 2 8 1);
   Ld (SLane 3 8 0); Ld (SLane 3 4 2); Fsub 0 0 4; Fsub 1 1 4; Fsub 2 2 4; Fsub 3 3 4; Fmul 0 0 6; Fmul 1 1 6;
   Fmul 2 2 6; Fmul 3 3 6; Fadd 0 0 5; Fadd 1 1 5; Fadd 2 2 5; Fadd 3 3 5; Fcvtzs 0 0; Fcvtzs 1 1; Fcvtzs 2 2;
   Fcvtzs 3 3; SqxtnD 0 0; Sqxtn2 0 1; SqxtnD 2 2; Sqxtn2 2 3; SqxtunD 0 0; Sqxtun2 0 2; St (SLane 0 8 0);
   St (SLane 0 4 2); St (SLane 0 2 6); St (SLane 0 1 14)].
Definition Quantize32_post (l : Z) : list instr :=
  match l with
  | 1 => Quantize32_post1
  | 2 => Quantize32_post2
  | 3 => Quantize32_post3
  | 4 => Quantize32_post4
  | 5 => Quantize32_post5
  | 6 => Quantize32_post6
  | 7 => Quantize32_post7
  | 8 => Quantize32_post8
  | 9 => Quantize32_post9
  | 10 => Quantize32_post10
  | 11 => Quantize32_post11
  | 12 => Quantize32_post12
  | 13 => Quantize32_post13
  | 14 => Quantize32_post14
  | 15 => Quantize32_post15
  | _ => []
  end.

(* transform_kernels_arm_32.h 3159 *)
Definition Dequantize32_pre : list instr :=
  [Dup 4 4 P_range_min; Dup 5 4 P_range_offset; Dup 6 4 P_range_scale].
(* transform_kernels_arm_32.h 3159 *)
Definition Dequantize32_body : list instr :=
  [Ld (SLane 0 8 0); Ld (SLane 0 8 1); Uxtl2 1 0; Uxtl 0 0; Sxtl2 3 1; Sxtl 2 1; Sxtl2 1 0; Sxtl 0 0; Scvtf 0 0;
   Scvtf 1 1; Scvtf 2 2; Scvtf 3 3; Fsub 0 0 5; Fsub 1 1 5; Fsub 2 2 5; Fsub 3 3 5; Fmul 0 0 6; Fmul 1 1 6;
   Fmul 2 2 6; Fmul 3 3 6; Fadd 0 0 4; Fadd 1 1 4; Fadd 2 2 4; Fadd 3 3 4; St (SLane 0 8 0); St (SLane 0 8 1);
   St (SLane 1 8 0); St (SLane 1 8 1); St (SLane 2 8 0); St (SLane 2 8 1); St (SLane 3 8 0); St (SLane 3 8 1)].
(* transform_kernels_arm_32.h 3220 *)
Definition Dequantize32_post1 : list instr :=
  [Ld (SLane 0 1 0); Uxtl 0 0; Sxtl 0 0; Scvtf 0 0; Fsub 0 0 5; Fmul 0 0 6; Fadd 0 0 4; St (SLane 0 4 0)].
(* transform_kernels_arm_32.h 3301 *)
Definition Dequantize32_post2 : list instr :=
  [Ld (SLane 0 2 0); Uxtl 0 0; Sxtl 0 0; Scvtf 0 0; Fsub 0 0 5; Fmul 0 0 6; Fadd 0 0 4; St (SLane 0 8 0)].
(* transform_kernels_arm_32.h 3382 *)
Definition Dequantize32_post3 : list instr :=
  [Ld (SLane 0 2 0); Ld (SLane 0 1 2); Uxtl 0 0; Sxtl 0 0; Scvtf 0 0; Fsub 0 0 5; Fmul 0 0 6; Fadd 0 0 4;
   St (SLane 0 8 0); St (SLane 0 4 2)].
(* transform_kernels_arm_32.h 3465 *)
Definition Dequantize32_post4 : list instr :=
  [Ld (SLane 0 4 0); Uxtl 0 0; Sxtl 0 0; Scvtf 0 0; Fsub 0 0 5; Fmul 0 0 6; Fadd 0 0 4; St (SLane 0 8 0);
   St (SLane 0 8 1)].
(* transform_kernels_arm_32.h 3546 *)
Definition Dequantize32_post5 : list instr :=
  [Ld (SLane 0 4 0); Ld (SLane 0 1 4); Uxtl 0 0; Sxtl2 1 0; Sxtl 0 0; Scvtf 0 0; Scvtf 1 1; Fsub 0 0 5; Fsub 1 1 5;
   Fmul 0 0 6; Fmul 1 1 6; Fadd 0 0 4; Fadd 1 1 4; St (SLane 0 8 0); St (SLane 0 8 1); St (SLane 1 4 0)].
(* transform_kernels_arm_32.h 3634 *)
Definition Dequantize32_post6 : list instr :=
  [Ld (SLane 0 4 0); Ld (SLane 0 2 2); Uxtl 0 0; Sxtl2 1 0; Sxtl 0 0; Scvtf 0 0; Scvtf 1 1; Fsub 0 0 5; Fsub 1 1 5;
   Fmul 0 0 6; Fmul 1 1 6; Fadd 0 0 4; Fadd 1 1 4; St (SLane 0 8 0); St (SLane 0 8 1); St (SLane 1 8 0)].
(* transform_kernels_arm_32.h 3721 *)
Definition Dequantize32_post7 : list instr :=
  [Ld (SLane 0 4 0); Ld (SLane 0 2 2); Ld (SLane 0 1 6); Uxtl 0 0; Sxtl2 1 0; Sxtl 0 0; Scvtf 0 0; Scvtf 1 1;
   Fsub 0 0 5; Fsub 1 1 5; Fmul 0 0 6; Fmul 1 1 6; Fadd 0 0 4; Fadd 1 1 4; St (SLane 0 8 0); St (SLane 0 8 1);
   St (SLane 1 8 0); St (SLane 1 4 2)].
(* transform_kernels_arm_32.h 3810 *)
Definition Dequantize32_post8 : list instr :=
  [Ld (SLane 0 8 0); Uxtl 0 0; Sxtl2 1 0; Sxtl 0 0; Scvtf 0 0; Scvtf 1 1; Fsub 0 0 5; Fsub 1 1 5; Fmul 0 0 6;
   Fmul 1 1 6; Fadd 0 0 4; Fadd 1 1 4; St (SLane 0 8 0); St (SLane 0 8 1); St (SLane 1 8 0); St (SLane 1 8 1)].
(* transform_kernels_arm_32.h 3896 *)
Definition Dequantize32_post9 : list instr :=
  [Ld (SLane 0 8 0); Ld (SLane 0 1 8); Uxtl2 1 0; Uxtl 0 0; Sxtl 2 1; Sxtl2 1 0; Sxtl 0 0; Scvtf 0 0; Scvtf 1 1;
   Scvtf 2 2; Fsub 0 0 5; Fsub 1 1 5; Fsub 2 2 5; Fmul 0 0 6; Fmul 1 1 6; Fmul 2 2 6; Fadd 0 0 4; Fadd 1 1 4;
   Fadd 2 2 4; St (SLane 0 8 0); St (SLane 0 8 1); St (SLane 1 8 0); St (SLane 1 8 1); St (SLane 2 4 0)].
(* transform_kernels_arm_32.h 3990 *)
Definition Dequantize32_post10 : list instr :=
  [Ld (SLane 0 8 0); Ld (SLane 0 2 4); Uxtl2 1 0; Uxtl 0 0; Sxtl 2 1; Sxtl2 1 0; Sxtl 0 0; Scvtf 0 0; Scvtf 1 1;
   Scvtf 2 2; Fsub 0 0 5; Fsub 1 1 5; Fsub 2 2 5; Fmul 0 0 6; Fmul 1 1 6; Fmul 2 2 6; Fadd 0 0 4; Fadd 1 1 4;
   Fadd 2 2 4; St (SLane 0 8 0); St (SLane 0 8 1); St (SLane 1 8 0); St (SLane 1 8 1); St (SLane 2 8 0)].
(* transform_kernels_arm_32.h 4084 *)
Definition Dequantize32_post11 : list instr :=
  [Ld (SLane 0 8 0); Ld (SLane 0 2 4); Ld (SLane 0 1 10); Uxtl2 1 0; Uxtl 0 0; Sxtl 2 1; Sxtl2 1 0; Sxtl 0 0;
   Scvtf 0 0; Scvtf 1 1; Scvtf 2 2; Fsub 0 0 5; Fsub 1 1 5; Fsub 2 2 5; Fmul 0 0 6; Fmul 1 1 6; Fmul 2 2 6;
   Fadd 0 0 4; Fadd 1 1 4; Fadd 2 2 4; St (SLane 0 8 0); St (SLane 0 8 1); St (SLane 1 8 0); St (SLane 1 8 1);
   St (SLane 2 8 0); St (SLane 2 4 2)].
(* transform_kernels_arm_32.h 4180 *)
Definition Dequantize32_post12 : list instr :=
  [Ld (SLane 0 8 0); Ld (SLane 0 4 2); Uxtl2 1 0; Uxtl 0 0; Sxtl 2 1; Sxtl2 1 0; Sxtl 0 0; Scvtf 0 0; Scvtf 1 1;
   Scvtf 2 2; Fsub 0 0 5; Fsub 1 1 5; Fsub 2 2 5; Fmul 0 0 6; Fmul 1 1 6; Fmul 2 2 6; Fadd 0 0 4; Fadd 1 1 4;
   Fadd 2 2 4; St (SLane 0 8 0); St (SLane 0 8 1); St (SLane 1 8 0); St (SLane 1 8 1); St (SLane 2 8 0);
   St (SLane 2 8 1)].
(* transform_kernels_arm_32.h 4274 *)
Definition Dequantize32_post13 : list instr :=
  [Ld (SLane 0 8 0); Ld (SLane 0 4 2); Ld (SLane 0 1 12); Uxtl2 1 0; Uxtl 0 0; Sxtl2 3 1; Sxtl 2 1; Sxtl2 1 0;
   Sxtl 0 0; Scvtf 0 0; Scvtf 1 1; Scvtf 2 2; Scvtf 3 3; Fsub 0 0 5; Fsub 1 1 5; Fsub 2 2 5; Fsub 3 3 5; Fmul 0 0 6;
   Fmul 1 1 6; Fmul 2 2 6; Fmul 3 3 6; Fadd 0 0 4; Fadd 1 1 4; Fadd 2 2 4; Fadd 3 3 4; St (SLane 0 8 0);
   St (SLane 0 8 1); St (SLane 1 8 0); St (SLane 1 8 1); St (SLane 2 8 0); St (SLane 2 8 1); St (SLane 3 4 0)].
(* transform_kernels_arm_32.h 4375 *)
Definition Dequantize32_post14 : list instr :=
  [Ld (SLane 0 8 0); Ld (SLane 0 4 2); Ld (SLane 0 2 6); Uxtl2 1 0; Uxtl 0 0; Sxtl2 3 1; Sxtl 2 1; Sxtl2 1 0;
   Sxtl 0 0; Scvtf 0 0; Scvtf 1 1; Scvtf 2 2; Scvtf 3 3; Fsub 0 0 5; Fsub 1 1 5; Fsub 2 2 5; Fsub 3 3 5; Fmul 0 0 6;
   Fmul 1 1 6; Fmul 2 2 6; Fmul 3 3 6; Fadd 0 0 4; Fadd 1 1 4; Fadd 2 2 4; Fadd 3 3 4; St (SLane 0 8 0);
   St (SLane 0 8 1); St (SLane 1 8 0); St (SLane 1 8 1); St (SLane 2 8 0); St (SLane 2 8 1); St (SLane 3 8 0)].
(* transform_kernels_arm_32.h 4475 *)
Definition Dequantize32_post15 : list instr :=
  [Ld (SLane 0 8 0); Ld (SLane 0 4 2); Ld (SLane 0 2 6); Ld (SLane 0 1 14); Uxtl2 1 0; Uxtl 0 0; Sxtl2 3 1; Sxtl 2 1;
   Sxtl2 1 0; Sxtl 0 0; Scvtf 0 0; Scvtf 1 1; Scvtf 2 2; Scvtf 3 3; Fsub 0 0 5; Fsub 1 1 5; Fsub 2 2 5; Fsub 3 3 5;
   Fmul 0 0 6; Fmul 1 1 6; Fmul 2 2 6; Fmul 3 3 6; Fadd 0 0 4; Fadd 1 1 4; Fadd 2 2 4; Fadd 3 3 4; St (SLane 0 8 0);
   St (SLane 0 8 1); St (SLane 1 8 0); St (SLane 1 8 1); St (SLane 2 8 0); St (SLane 2 8 1); St (SLane 3 8 0);
   St (SLane 3 4 2)].
Definition Dequantize32_post (l : Z) : list instr :=
  match l with
  | 1 => Dequantize32_post1
  | 2 => Dequantize32_post2
  | 3 => Dequantize32_post3
  | 4 => Dequantize32_post4
  | 5 => Dequantize32_post5
  | 6 => Dequantize32_post6
  | 7 => Dequantize32_post7
  | 8 => Dequantize32_post8
  | 9 => Dequantize32_post9
  | 10 => Dequantize32_post10
  | 11 => Dequantize32_post11
  | 12 => Dequantize32_post12
  | 13 => Dequantize32_post13
  | 14 => Dequantize32_post14
  | 15 => Dequantize32_post15
  | _ => []
  end.

(* transform_kernels_arm_32.h 4577 *)
Definition MinMax32_pre : list instr :=
  [Dup 4 1 P_min; Dup 5 1 P_max].
(* transform_kernels_arm_32.h 4577 *)
Definition MinMax32_body : list instr :=
  [Ld (SLane 0 8 0); Ld (SLane 0 8 1); Umax 0 0 4; Umin 0 0 5; St (SLane 0 8 0); St (SLane 0 8 1)].
(* transform_kernels_arm_32.h 4617 *)
Definition MinMax32_post1 : list instr :=
  [Ld (SLane 0 1 0); Umax 0 0 4; Umin 0 0 5; St (SLane 0 1 0)].
(* transform_kernels_arm_32.h 4673 *)
Definition MinMax32_post2 : list instr :=
  [Ld (SLane 0 2 0); Umax 0 0 4; Umin 0 0 5; St (SLane 0 2 0)].
(* transform_kernels_arm_32.h 4729 *)
Definition MinMax32_post3 : list instr :=
  [Ld (SLane 0 2 0); Ld (SLane 0 1 2); Umax 0 0 4; Umin 0 0 5; St (SLane 0 2 0); St (SLane 0 1 2)].
(* transform_kernels_arm_32.h 4787 *)
Definition MinMax32_post4 : list instr :=
  [Ld (SLane 0 4 0); Umax 0 0 4; Umin 0 0 5; St (SLane 0 4 0)].
(* transform_kernels_arm_32.h 4843 *)
Definition MinMax32_post5 : list instr :=
  [Ld (SLane 0 4 0); Ld (SLane 0 1 4); Umax 0 0 4; Umin 0 0 5; St (SLane 0 4 0); St (SLane 0 1 4)].
(* transform_kernels_arm_32.h 4901 *)
Definition MinMax32_post6 : list instr :=
  [Ld (SLane 0 4 0); Ld (SLane 0 2 2); Umax 0 0 4; Umin 0 0 5; St (SLane 0 4 0); St (SLane 0 2 2)].
(* transform_kernels_arm_32.h 4959 *)
Definition MinMax32_post7 : list instr :=
  [Ld (SLane 0 4 0); Ld (SLane 0 2 2); Ld (SLane 0 1 6); Umax 0 0 4; Umin 0 0 5; St (SLane 0 4 0); St (SLane 0 2 2);
   St (SLane 0 1 6)].
(* transform_kernels_arm_32.h 5019 *)
Definition MinMax32_post8 : list instr :=
  [Ld (SLane 0 8 0); Umax 0 0 4; Umin 0 0 5; St (SLane 0 8 0)].
(* transform_kernels_arm_32.h 5075 *)
Definition MinMax32_post9 : list instr :=
  [Ld (SLane 0 8 0); Ld (SLane 0 1 8); Umax 0 0 4; Umin 0 0 5; St (SLane 0 8 0); St (SLane 0 1 8)].
(* transform_kernels_arm_32.h 5133 *)
Definition MinMax32_post10 : list instr :=
  [Ld (SLane 0 8 0); Ld (SLane 0 2 4); Umax 0 0 4; Umin 0 0 5; St (SLane 0 8 0); St (SLane 0 2 4)].
(* transform_kernels_arm_32.h 5191 *)
Definition MinMax32_post11 : list instr :=
  [Ld (SLane 0 8 0); Ld (SLane 0 2 4); Ld (SLane 0 1 10); Umax 0 0 4; Umin 0 0 5; St (SLane 0 8 0); St (SLane 0 2 4);
   St (SLane 0 1 10)].
(* transform_kernels_arm_32.h 5251 *)
Definition MinMax32_post12 : list instr :=
  [Ld (SLane 0 8 0); Ld (SLane 0 4 2); Umax 0 0 4; Umin 0 0 5; St (SLane 0 8 0); St (SLane 0 4 2)].
(* transform_kernels_arm_32.h 5309 *)
Definition MinMax32_post13 : list instr :=
  [Ld (SLane 0 8 0); Ld (SLane 0 4 2); Ld (SLane 0 1 12); Umax 0 0 4; Umin 0 0 5; St (SLane 0 8 0); St (SLane 0 4 2);
   St (SLane 0 1 12)].
(* transform_kernels_arm_32.h 5369 *)
Definition MinMax32_post14 : list instr :=
  [Ld (SLane 0 8 0); Ld (SLane 0 4 2); Ld (SLane 0 2 6); Umax 0 0 4; Umin 0 0 5; St (SLane 0 8 0); St (SLane 0 4 2);
   St (SLane 0 2 6)].
(* transform_kernels_arm_32.h 5429 *)
Definition MinMax32_post15 : list instr :=
  [Ld (SLane 0 8 0); Ld (SLane 0 4 2); Ld (SLane 0 2 6); Ld (SLane 0 1 14); Umax 0 0 4; Umin 0 0 5; St (SLane 0 8 0);
   St (SLane 0 4 2); St (SLane 0 2 6); St (SLane 0 1 14)].
Definition MinMax32_post (l : Z) : list instr :=
  match l with
  | 1 => MinMax32_post1
  | 2 => MinMax32_post2
  | 3 => MinMax32_post3
  | 4 => MinMax32_post4
  | 5 => MinMax32_post5
  | 6 => MinMax32_post6
  | 7 => MinMax32_post7
  | 8 => MinMax32_post8
  | 9 => MinMax32_post9
  | 10 => MinMax32_post10
  | 11 => MinMax32_post11
  | 12 => MinMax32_post12
  | 13 => MinMax32_post13
  | 14 => MinMax32_post14
  | 15 => MinMax32_post15
  | _ => []
  end.

(* transform_kernels_arm_32.h 5491 *)
Definition BiasAdd32_pre : list instr :=
  [Ldr P_input_range_min; DupW0 8 4; Ldr P_input_range_scale; DupW0 9 4; Ldr P_bias_range_min; DupW0 10 4;
   Ldr P_bias_range_scale; DupW0 11 4; Ldr P_output_range_min; DupW0 12 4; Ldr P_one_over_output_range_scale;
   DupW0 13 4; Ldr P_output_range_offset; DupW0 14 4].
(* transform_kernels_arm_32.h 5491 *)
Definition BiasAdd32_body : list instr :=
  [Ld (SLane 0 8 0); Ld (SLane 0 8 1); LdBias (SLane 4 8 0); LdBias (SLane 4 8 1); Uxtl2 1 0; Uxtl 0 0; Uxtl2 5 4;
   Uxtl 4 4; Sxtl2 3 1; Sxtl 2 1; Sxtl2 7 5; Sxtl 6 5; Sxtl2 1 0; Sxtl 0 0; Sxtl2 5 4; Sxtl 4 4; Scvtf 0 0;
   Scvtf 1 1; Scvtf 2 2; Scvtf 3 3; Scvtf 4 4; Scvtf 5 5; Scvtf 6 6; Scvtf 7 7; Fmul 0 0 9; Fmul 1 1 9; Fmul 2 2 9;
   Fmul 3 3 9; Fmul 4 4 11; Fmul 5 5 11; Fmul 6 6 11; Fmul 7 7 11; Fadd 0 0 8; Fadd 1 1 8; Fadd 2 2 8; Fadd 3 3 8;
   Fadd 4 4 10; Fadd 5 5 10; Fadd 6 6 10; Fadd 7 7 10; Fadd 0 0 4; Fadd 1 1 5; Fadd 2 2 6; Fadd 3 3 7; Fsub 0 0 12;
   Fsub 1 1 12; Fsub 2 2 12; Fsub 3 3 12; Fmul 0 0 13; Fmul 1 1 13; Fmul 2 2 13; Fmul 3 3 13; Fadd 0 0 14;
   Fadd 1 1 14; Fadd 2 2 14; Fadd 3 3 14; Fcvtzs 0 0; Fcvtzs 1 1; Fcvtzs 2 2; Fcvtzs 3 3; St (SLane 0 8 0);
   St (SLane 0 8 1); St (SLane 1 8 0); St (SLane 1 8 1); St (SLane 2 8 0); St (SLane 2 8 1); St (SLane 3 8 0);
   St (SLane 3 8 1)].
(* transform_kernels_arm_32.h 5609 *)
Definition BiasAdd32_post1 : list instr :=
  [Ld (SLane 0 1 0); LdBias (SLane 1 1 0); Uxtl 0 0; Uxtl 1 1; Sxtl 0 0; Sxtl 1 1; Scvtf 0 0; Scvtf 1 1; Fmul 0 0 9;
   Fmul 1 1 11; Fadd 0 0 8; Fadd 1 1 10; Fadd 0 0 1; Fsub 0 0 12; Fmul 0 0 13; Fadd 0 0 14; Fcvtzs 0 0;
   St (SLane 0 4 0)].
(* transform_kernels_arm_32.h 5753 *)
Definition BiasAdd32_post2 : list instr :=
  [Ld (SLane 0 2 0); LdBias (SLane 1 2 0); Uxtl 0 0; Uxtl 1 1; Sxtl 0 0; Sxtl 1 1; Scvtf 0 0; Scvtf 1 1; Fmul 0 0 9;
   Fmul 1 1 11; Fadd 0 0 8; Fadd 1 1 10; Fadd 0 0 1; Fsub 0 0 12; Fmul 0 0 13; Fadd 0 0 14; Fcvtzs 0 0;
   St (SLane 0 8 0)].
(* transform_kernels_arm_32.h 5897 *)
Definition BiasAdd32_post3 : list instr :=
  [Ld (SLane 0 2 0); Ld (SLane 0 1 2); LdBias (SLane 1 2 0); LdBias (SLane 1 1 2); Uxtl 0 0; Uxtl 1 1; Sxtl 0 0;
   Sxtl 1 1; Scvtf 0 0; Scvtf 1 1; Fmul 0 0 9; Fmul 1 1 11; Fadd 0 0 8; Fadd 1 1 10; Fadd 0 0 1; Fsub 0 0 12;
   Fmul 0 0 13; Fadd 0 0 14; Fcvtzs 0 0; St (SLane 0 8 0); St (SLane 0 4 2)].
(* transform_kernels_arm_32.h 6044 *)
Definition BiasAdd32_post4 : list instr :=
  [Ld (SLane 0 4 0); LdBias (SLane 1 4 0); Uxtl 0 0; Uxtl 1 1; Sxtl 0 0; Sxtl 1 1; Scvtf 0 0; Scvtf 1 1; Fmul 0 0 9;
   Fmul 1 1 11; Fadd 0 0 8; Fadd 1 1 10; Fadd 0 0 1; Fsub 0 0 12; Fmul 0 0 13; Fadd 0 0 14; Fcvtzs 0 0;
   St (SLane 0 8 0); St (SLane 0 8 1)].
(* transform_kernels_arm_32.h 6188 *)
Definition BiasAdd32_post5 : list instr :=
  [Ld (SLane 0 4 0); Ld (SLane 0 1 4); LdBias (SLane 2 4 0); LdBias (SLane 2 1 4); Uxtl 0 0; Uxtl 2 2; Sxtl2 1 0;
   Sxtl 0 0; Sxtl2 3 2; Sxtl 2 2; Scvtf 0 0; Scvtf 1 1; Scvtf 2 2; Scvtf 3 3; Fmul 0 0 9; Fmul 1 1 9; Fmul 2 2 11;
   Fmul 3 3 11; Fadd 0 0 8; Fadd 1 1 8; Fadd 2 2 10; Fadd 3 3 10; Fadd 0 0 2; Fadd 1 1 3; Fsub 0 0 12; Fsub 1 1 12;
   Fmul 0 0 13; Fmul 1 1 13; Fadd 0 0 14; Fadd 1 1 14; Fcvtzs 0 0; Fcvtzs 1 1; St (SLane 0 8 0); St (SLane 0 8 1);
   St (SLane 1 4 0)].
(* transform_kernels_arm_32.h 6348 *)
Definition BiasAdd32_post6 : list instr :=
  [Ld (SLane 0 4 0); Ld (SLane 0 2 2); LdBias (SLane 2 4 0); LdBias (SLane 2 2 2); Uxtl 0 0; Uxtl 2 2; Sxtl2 1 0;
   Sxtl 0 0; Sxtl2 3 2; Sxtl 2 2; Scvtf 0 0; Scvtf 1 1; Scvtf 2 2; Scvtf 3 3; Fmul 0 0 9; Fmul 1 1 9; Fmul 2 2 11;
   Fmul 3 3 11; Fadd 0 0 8; Fadd 1 1 8; Fadd 2 2 10; Fadd 3 3 10; Fadd 0 0 2; Fadd 1 1 3; Fsub 0 0 12; Fsub 1 1 12;
   Fmul 0 0 13; Fmul 1 1 13; Fadd 0 0 14; Fadd 1 1 14; Fcvtzs 0 0; Fcvtzs 1 1; St (SLane 0 8 0); St (SLane 0 8 1);
   St (SLane 1 8 0)].
(* transform_kernels_arm_32.h 6507 *)
Definition BiasAdd32_post7 : list instr :=
  [Ld (SLane 0 4 0); Ld (SLane 0 2 2); Ld (SLane 0 1 6); LdBias (SLane 2 4 0); LdBias (SLane 2 2 2);
   LdBias (SLane 2 1 6); Uxtl 0 0; Uxtl 2 2; Sxtl2 1 0; Sxtl 0 0; Sxtl2 3 2; Sxtl 2 2; Scvtf 0 0; Scvtf 1 1;
   Scvtf 2 2; Scvtf 3 3; Fmul 0 0 9; Fmul 1 1 9; Fmul 2 2 11; Fmul 3 3 11; Fadd 0 0 8; Fadd 1 1 8; Fadd 2 2 10;
   Fadd 3 3 10; Fadd 0 0 2; Fadd 1 1 3; Fsub 0 0 12; Fsub 1 1 12; Fmul 0 0 13; Fmul 1 1 13; Fadd 0 0 14; Fadd 1 1 14;
   Fcvtzs 0 0; Fcvtzs 1 1; St (SLane 0 8 0); St (SLane 0 8 1); St (SLane 1 8 0); St (SLane 1 4 2)].
(* transform_kernels_arm_32.h 6669 *)
Definition BiasAdd32_post8 : list instr :=
  [Ld (SLane 0 8 0); LdBias (SLane 2 8 0); Uxtl 0 0; Uxtl 2 2; Sxtl2 1 0; Sxtl 0 0; Sxtl2 3 2; Sxtl 2 2; Scvtf 0 0;
   Scvtf 1 1; Scvtf 2 2; Scvtf 3 3; Fmul 0 0 9; Fmul 1 1 9; Fmul 2 2 11; Fmul 3 3 11; Fadd 0 0 8; Fadd 1 1 8;
   Fadd 2 2 10; Fadd 3 3 10; Fadd 0 0 2; Fadd 1 1 3; Fsub 0 0 12; Fsub 1 1 12; Fmul 0 0 13; Fmul 1 1 13; Fadd 0 0 14;
   Fadd 1 1 14; Fcvtzs 0 0; Fcvtzs 1 1; St (SLane 0 8 0); St (SLane 0 8 1); St (SLane 1 8 0); St (SLane 1 8 1)].
(* transform_kernels_arm_32.h 6826 *)
Definition BiasAdd32_post9 : list instr :=
  [Ld (SLane 0 8 0); Ld (SLane 0 1 8); LdBias (SLane 3 8 0); LdBias (SLane 3 1 8); Uxtl2 1 0; Uxtl 0 0; Uxtl2 4 3;
   Uxtl 3 3; Sxtl 2 1; Sxtl 5 4; Sxtl2 1 0; Sxtl 0 0; Sxtl2 4 3; Sxtl 3 3; Scvtf 0 0; Scvtf 1 1; Scvtf 2 2;
   Scvtf 3 3; Scvtf 4 4; Scvtf 5 5; Fmul 0 0 9; Fmul 1 1 9; Fmul 2 2 9; Fmul 3 3 11; Fmul 4 4 11; Fmul 5 5 11;
   Fadd 0 0 8; Fadd 1 1 8; Fadd 2 2 8; Fadd 3 3 10; Fadd 4 4 10; Fadd 5 5 10; Fadd 0 0 3; Fadd 1 1 4; Fadd 2 2 5;
   Fsub 0 0 12; Fsub 1 1 12; Fsub 2 2 12; Fmul 0 0 13; Fmul 1 1 13; Fmul 2 2 13; Fadd 0 0 14; Fadd 1 1 14;
   Fadd 2 2 14; Fcvtzs 0 0; Fcvtzs 1 1; Fcvtzs 2 2; St (SLane 0 8 0); St (SLane 0 8 1); St (SLane 1 8 0);
   St (SLane 1 8 1); St (SLane 2 4 0)].
(* transform_kernels_arm_32.h 7001 *)
Definition BiasAdd32_post10 : list instr :=
  [Ld (SLane 0 8 0); Ld (SLane 0 2 4); LdBias (SLane 3 8 0); LdBias (SLane 3 2 4); Uxtl2 1 0; Uxtl 0 0; Uxtl2 4 3;
   Uxtl 3 3; Sxtl 2 1; Sxtl 5 4; Sxtl2 1 0; Sxtl 0 0; Sxtl2 4 3; Sxtl 3 3; Scvtf 0 0; Scvtf 1 1; Scvtf 2 2;
   Scvtf 3 3; Scvtf 4 4; Scvtf 5 5; Fmul 0 0 9; Fmul 1 1 9; Fmul 2 2 9; Fmul 3 3 11; Fmul 4 4 11; Fmul 5 5 11;
   Fadd 0 0 8; Fadd 1 1 8; Fadd 2 2 8; Fadd 3 3 10; Fadd 4 4 10; Fadd 5 5 10; Fadd 0 0 3; Fadd 1 1 4; Fadd 2 2 5;
   Fsub 0 0 12; Fsub 1 1 12; Fsub 2 2 12; Fmul 0 0 13; Fmul 1 1 13; Fmul 2 2 13; Fadd 0 0 14; Fadd 1 1 14;
   Fadd 2 2 14; Fcvtzs 0 0; Fcvtzs 1 1; Fcvtzs 2 2; St (SLane 0 8 0); St (SLane 0 8 1); St (SLane 1 8 0);
   St (SLane 1 8 1); St (SLane 2 8 0)].
(* transform_kernels_arm_32.h 7176 *)
Definition BiasAdd32_post11 : list instr :=
  [Ld (SLane 0 8 0); Ld (SLane 0 2 4); Ld (SLane 0 1 10); LdBias (SLane 3 8 0); LdBias (SLane 3 2 4);
   LdBias (SLane 3 1 10); Uxtl2 1 0; Uxtl 0 0; Uxtl2 4 3; Uxtl 3 3; Sxtl 2 1; Sxtl 5 4; Sxtl2 1 0; Sxtl 0 0;
   Sxtl2 4 3; Sxtl 3 3; Scvtf 0 0; Scvtf 1 1; Scvtf 2 2; Scvtf 3 3; Scvtf 4 4; Scvtf 5 5; Fmul 0 0 9; Fmul 1 1 9;
   Fmul 2 2 9; Fmul 3 3 11; Fmul 4 4 11; Fmul 5 5 11; Fadd 0 0 8; Fadd 1 1 8; Fadd 2 2 8; Fadd 3 3 10; Fadd 4 4 10;
   Fadd 5 5 10; Fadd 0 0 3; Fadd 1 1 4; Fadd 2 2 5; Fsub 0 0 12; Fsub 1 1 12; Fsub 2 2 12; Fmul 0 0 13; Fmul 1 1 13;
   Fmul 2 2 13; Fadd 0 0 14; Fadd 1 1 14; Fadd 2 2 14; Fcvtzs 0 0; Fcvtzs 1 1; Fcvtzs 2 2; St (SLane 0 8 0);
   St (SLane 0 8 1); St (SLane 1 8 0); St (SLane 1 8 1); St (SLane 2 8 0); St (SLane 2 4 2)].
(* transform_kernels_arm_32.h 7354 *)
Definition BiasAdd32_post12 : list instr :=
  [Ld (SLane 0 8 0); Ld (SLane 0 4 2); LdBias (SLane 3 8 0); LdBias (SLane 3 4 2); Uxtl2 1 0; Uxtl 0 0; Uxtl2 4 3;
   Uxtl 3 3; Sxtl 2 1; Sxtl 5 4; Sxtl2 1 0; Sxtl 0 0; Sxtl2 4 3; Sxtl 3 3; Scvtf 0 0; Scvtf 1 1; Scvtf 2 2;
   Scvtf 3 3; Scvtf 4 4; Scvtf 5 5; Fmul 0 0 9; Fmul 1 1 9; Fmul 2 2 9; Fmul 3 3 11; Fmul 4 4 11; Fmul 5 5 11;
   Fadd 0 0 8; Fadd 1 1 8; Fadd 2 2 8; Fadd 3 3 10; Fadd 4 4 10; Fadd 5 5 10; Fadd 0 0 3; Fadd 1 1 4; Fadd 2 2 5;
   Fsub 0 0 12; Fsub 1 1 12; Fsub 2 2 12; Fmul 0 0 13; Fmul 1 1 13; Fmul 2 2 13; Fadd 0 0 14; Fadd 1 1 14;
   Fadd 2 2 14; Fcvtzs 0 0; Fcvtzs 1 1; Fcvtzs 2 2; St (SLane 0 8 0); St (SLane 0 8 1); St (SLane 1 8 0);
   St (SLane 1 8 1); St (SLane 2 8 0); St (SLane 2 8 1)].
(* transform_kernels_arm_32.h 7529 *)
Definition BiasAdd32_post13 : list instr :=
  [Ld (SLane 0 8 0); Ld (SLane 0 4 2); Ld (SLane 0 1 12); LdBias (SLane 4 8 0); LdBias (SLane 4 4 2);
   LdBias (SLane 4 1 12); Uxtl2 1 0; Uxtl 0 0; Uxtl2 5 4; Uxtl 4 4; Sxtl2 3 1; Sxtl 2 1; Sxtl2 7 5; Sxtl 6 5;
   Sxtl2 1 0; Sxtl 0 0; Sxtl2 5 4; Sxtl 4 4; Scvtf 0 0; Scvtf 1 1; Scvtf 2 2; Scvtf 3 3; Scvtf 4 4; Scvtf 5 5;
   Scvtf 6 6; Scvtf 7 7; Fmul 0 0 9; Fmul 1 1 9; Fmul 2 2 9; Fmul 3 3 9; Fmul 4 4 11; Fmul 5 5 11; Fmul 6 6 11;
   Fmul 7 7 11; Fadd 0 0 8; Fadd 1 1 8; Fadd 2 2 8; Fadd 3 3 8; Fadd 4 4 10; Fadd 5 5 10; Fadd 6 6 10; Fadd 7 7 10;
   Fadd 0 0 4; Fadd 1 1 5; Fadd 2 2 6; Fadd 3 3 7; Fsub 0 0 12; Fsub 1 1 12; Fsub 2 2 12; Fsub 3 3 12; Fmul 0 0 13;
   Fmul 1 1 13; Fmul 2 2 13; Fmul 3 3 13; Fadd 0 0 14; Fadd 1 1 14; Fadd 2 2 14; Fadd 3 3 14; Fcvtzs 0 0; Fcvtzs 1 1;
   Fcvtzs 2 2; Fcvtzs 3 3; St (SLane 0 8 0); St (SLane 0 8 1); St (SLane 1 8 0); St (SLane 1 8 1); St (SLane 2 8 0);
   St (SLane 2 8 1); St (SLane 3 4 0)].
(* transform_kernels_arm_32.h 7720 *)
Definition BiasAdd32_post14 : list instr :=
  [Ld (SLane 0 8 0); Ld (SLane 0 4 2); Ld (SLane 0 2 6); LdBias (SLane 4 8 0); LdBias (SLane 4 4 2);
   LdBias (SLane 4 2 6); Uxtl2 1 0; Uxtl 0 0; Uxtl2 5 4; Uxtl 4 4; Sxtl2 3 1; Sxtl 2 1; Sxtl2 7 5; Sxtl 6 5;
   Sxtl2 1 0; Sxtl 0 0; Sxtl2 5 4; Sxtl 4 4; Scvtf 0 0; Scvtf 1 1; Scvtf 2 2; Scvtf 3 3; Scvtf 4 4; Scvtf 5 5;
   Scvtf 6 6; Scvtf 7 7; Fmul 0 0 9; Fmul 1 1 9; Fmul 2 2 9; Fmul 3 3 9; Fmul 4 4 11; Fmul 5 5 11; Fmul 6 6 11;
   Fmul 7 7 11; Fadd 0 0 8; Fadd 1 1 8; Fadd 2 2 8; Fadd 3 3 8; Fadd 4 4 10; Fadd 5 5 10; Fadd 6 6 10; Fadd 7 7 10;
   Fadd 0 0 4; Fadd 1 1 5; Fadd 2 2 6; Fadd 3 3 7; Fsub 0 0 12; Fsub 1 1 12; Fsub 2 2 12; Fsub 3 3 12; Fmul 0 0 13;
   Fmul 1 1 13; Fmul 2 2 13; Fmul 3 3 13; Fadd 0 0 14; Fadd 1 1 14; Fadd 2 2 14; Fadd 3 3 14; Fcvtzs 0 0; Fcvtzs 1 1;
   Fcvtzs 2 2; Fcvtzs 3 3; St (SLane 0 8 0); St (SLane 0 8 1); St (SLane 1 8 0); St (SLane 1 8 1); St (SLane 2 8 0);
   St (SLane 2 8 1); St (SLane 3 8 0)].
(* transform_kernels_arm_32.h 7910 *)
Definition BiasAdd32_post15 : list instr :=
  [Ld (SLane 0 8 0); Ld (SLane 0 4 2); Ld (SLane 0 2 6); Ld (SLane 0 1 14); LdBias (SLane 4 8 0);
   LdBias (SLane 4 4 2); LdBias (SLane 4 2 6); LdBias (SLane 4 1 14); Uxtl2 1 0; Uxtl 0 0; Uxtl2 5 4; Uxtl 4 4;
   Sxtl2 3 1; Sxtl 2 1; Sxtl2 7 5; Sxtl 6 5; Sxtl2 1 0; Sxtl 0 0; Sxtl2 5 4; Sxtl 4 4; Scvtf 0 0; Scvtf 1 1;
   Scvtf 2 2; Scvtf 3 3; Scvtf 4 4; Scvtf 5 5; Scvtf 6 6; Scvtf 7 7; Fmul 0 0 9; Fmul 1 1 9; Fmul 2 2 9; Fmul 3 3 9;
   Fmul 4 4 11; Fmul 5 5 11; Fmul 6 6 11; Fmul 7 7 11; Fadd 0 0 8; Fadd 1 1 8; Fadd 2 2 8; Fadd 3 3 8; Fadd 4 4 10;
   Fadd 5 5 10; Fadd 6 6 10; Fadd 7 7 10; Fadd 0 0 4; Fadd 1 1 5; Fadd 2 2 6; Fadd 3 3 7; Fsub 0 0 12; Fsub 1 1 12;
   Fsub 2 2 12; Fsub 3 3 12; Fmul 0 0 13; Fmul 1 1 13; Fmul 2 2 13; Fmul 3 3 13; Fadd 0 0 14; Fadd 1 1 14;
   Fadd 2 2 14; Fadd 3 3 14; Fcvtzs 0 0; Fcvtzs 1 1; Fcvtzs 2 2; Fcvtzs 3 3; St (SLane 0 8 0); St (SLane 0 8 1);
   St (SLane 1 8 0); St (SLane 1 8 1); St (SLane 2 8 0); St (SLane 2 8 1); St (SLane 3 8 0); St (SLane 3 4 2)].
Definition BiasAdd32_post (l : Z) : list instr :=
  match l with
  | 1 => BiasAdd32_post1
  | 2 => BiasAdd32_post2
  | 3 => BiasAdd32_post3
  | 4 => BiasAdd32_post4
  | 5 => BiasAdd32_post5
  | 6 => BiasAdd32_post6
  | 7 => BiasAdd32_post7
  | 8 => BiasAdd32_post8
  | 9 => BiasAdd32_post9
  | 10 => BiasAdd32_post10
  | 11 => BiasAdd32_post11
  | 12 => BiasAdd32_post12
  | 13 => BiasAdd32_post13
  | 14 => BiasAdd32_post14
  | 15 => BiasAdd32_post15
  | _ => []
  end.

(* the five kernels *)
Definition Requantize32K : tkernel := mk_tk 4 1 Requantize32_pre Requantize32_body Requantize32_post false.
Definition Quantize32K : tkernel := mk_tk 4 1 Quantize32_pre Quantize32_body Quantize32_post false.
Definition Dequantize32K : tkernel := mk_tk 1 4 Dequantize32_pre Dequantize32_body Dequantize32_post false.
Definition MinMax32K : tkernel := mk_tk 1 1 MinMax32_pre MinMax32_body MinMax32_post false.
Definition BiasAdd32K : tkernel := mk_tk 1 4 BiasAdd32_pre BiasAdd32_body BiasAdd32_post true.
