(* TransformKernels.v: the straight-line pieces of the inline assembly of
   meta/transform_kernels_arm_64.h, one constructor per instruction, in the order
   of the source.  Generated by tools/gen_transform.py, which also checks that the
   instructions around the pieces are those described in TransformModel.v. *)
From Verif Require Import Base TransformModel.

(* transform_kernels_arm_64.h 27 *)
Definition Requantize_pre : list instr :=
  [Dup 4 4 P_input_range_min; Dup 5 4 P_output_range_min; Dup 6 4 P_input_range_offset; Dup 7 4 P_input_range_scale;
   Dup 8 4 P_one_over_output_range_scale; Dup 9 4 P_output_range_offset; Fsub 4 4 5].
(* transform_kernels_arm_64.h 27 *)
Definition Requantize_body : list instr :=
  [Ld (SFull 0); Ld (SFull 1); Ld (SFull 2); Ld (SFull 3); Scvtf 0 0; Scvtf 1 1; Scvtf 2 2; Scvtf 3 3; Fsub 0 0 6;
   Fsub 1 1 6; Fsub 2 2 6; Fsub 3 3 6; Fmul 0 0 7; Fmul 1 1 7; Fmul 2 2 7; Fmul 3 3 7; Fadd 0 0 4; Fadd 1 1 4;
   Fadd 2 2 4; Fadd 3 3 4; Fmul 0 0 8; Fmul 1 1 8; Fmul 2 2 8; Fmul 3 3 8; Fadd 0 0 9; Fadd 1 1 9; Fadd 2 2 9;
   Fadd 3 3 9; Fcvtns 0 0; Fcvtns 1 1; Fcvtns 2 2; Fcvtns 3 3; Sqxtn 0 0; Sqxtn2 0 1; Sqxtn 2 2; Sqxtn2 2 3;
   Sqxtun 0 0; Sqxtun2 0 2; St (SFull 0)].
(* transform_kernels_arm_64.h 106 *)
Definition Requantize_post1 : list instr :=
  [Ld (SLane 0 4 0); Scvtf 0 0; Fsub 0 0 6; Fmul 0 0 7; Fadd 0 0 4; Fmul 0 0 8; Fadd 0 0 9; Fcvtns 0 0; Sqxtn 0 0;
   Sqxtun 0 0; St (SLane 0 1 0)].
(* transform_kernels_arm_64.h 208 *)
Definition Requantize_post2 : list instr :=
  [Ld (SHalf 0); Scvtf 0 0; Fsub 0 0 6; Fmul 0 0 7; Fadd 0 0 4; Fmul 0 0 8; Fadd 0 0 9; Fcvtns 0 0; Sqxtn 0 0;
   Sqxtun 0 0; St (SLane 0 2 0)].
(* transform_kernels_arm_64.h 310 *)
Definition Requantize_post3 : list instr :=
  [Ld (SHalf 0); Ld (SLane 0 4 2); Scvtf 0 0; Fsub 0 0 6; Fmul 0 0 7; Fadd 0 0 4; Fmul 0 0 8; Fadd 0 0 9; Fcvtns 0 0;
   Sqxtn 0 0; Sqxtun 0 0; St (SLane 0 2 0); St (SLane 0 1 2)].
(* transform_kernels_arm_64.h 414 *)
Definition Requantize_post4 : list instr :=
  [Ld (SFull 0); Scvtf 0 0; Fsub 0 0 6; Fmul 0 0 7; Fadd 0 0 4; Fmul 0 0 8; Fadd 0 0 9; Fcvtns 0 0; Sqxtn 0 0;
   Sqxtun 0 0; St (SLane 0 4 0)].
(* transform_kernels_arm_64.h 516 *)
Definition Requantize_post5 : list instr :=
  [Ld (SFull 0); Ld (SLane 1 4 0); Scvtf 0 0; Scvtf 1 1; Fsub 0 0 6; Fsub 1 1 6; Fmul 0 0 7; Fmul 1 1 7; Fadd 0 0 4;
   Fadd 1 1 4; Fmul 0 0 8; Fmul 1 1 8; Fadd 0 0 9; Fadd 1 1 9; Fcvtns 0 0; Fcvtns 1 1; Sqxtn 0 0; Sqxtn2 0 1;
   Sqxtun 0 0; St (SLane 0 4 0); St (SLane 0 1 4)].
(* transform_kernels_arm_64.h 628 *)
Definition Requantize_post6 : list instr :=
  [Ld (SFull 0); Ld (SHalf 1); Scvtf 0 0; Scvtf 1 1; Fsub 0 0 6; Fsub 1 1 6; Fmul 0 0 7; Fmul 1 1 7; Fadd 0 0 4;
   Fadd 1 1 4; Fmul 0 0 8; Fmul 1 1 8; Fadd 0 0 9; Fadd 1 1 9; Fcvtns 0 0; Fcvtns 1 1; Sqxtn 0 0; Sqxtn2 0 1;
   Sqxtun 0 0; St (SLane 0 4 0); St (SLane 0 2 2)].
(* transform_kernels_arm_64.h 740 *)
Definition Requantize_post7 : list instr :=
  [Ld (SFull 0); Ld (SHalf 1); Ld (SLane 1 4 2); Scvtf 0 0; Scvtf 1 1; Fsub 0 0 6; Fsub 1 1 6; Fmul 0 0 7;
   Fmul 1 1 7; Fadd 0 0 4; Fadd 1 1 4; Fmul 0 0 8; Fmul 1 1 8; Fadd 0 0 9; Fadd 1 1 9; Fcvtns 0 0; Fcvtns 1 1;
   Sqxtn 0 0; Sqxtn2 0 1; Sqxtun 0 0; St (SLane 0 4 0); St (SLane 0 2 2); St (SLane 0 1 6)].
(* transform_kernels_arm_64.h 854 *)
Definition Requantize_post8 : list instr :=
  [Ld (SFull 0); Ld (SFull 1); Scvtf 0 0; Scvtf 1 1; Fsub 0 0 6; Fsub 1 1 6; Fmul 0 0 7; Fmul 1 1 7; Fadd 0 0 4;
   Fadd 1 1 4; Fmul 0 0 8; Fmul 1 1 8; Fadd 0 0 9; Fadd 1 1 9; Fcvtns 0 0; Fcvtns 1 1; Sqxtn 0 0; Sqxtn2 0 1;
   Sqxtun 0 0; St (SHalf 0)].
(* transform_kernels_arm_64.h 964 *)
Definition Requantize_post9 : list instr :=
  [Ld (SFull 0); Ld (SFull 1); Ld (SLane 2 4 0); Scvtf 0 0; Scvtf 1 1; Scvtf 2 2; Fsub 0 0 6; Fsub 1 1 6; Fsub 2 2 6;
   Fmul 0 0 7; Fmul 1 1 7; Fmul 2 2 7; Fadd 0 0 4; Fadd 1 1 4; Fadd 2 2 4; Fmul 0 0 8; Fmul 1 1 8; Fmul 2 2 8;
   Fadd 0 0 9; Fadd 1 1 9; Fadd 2 2 9; Fcvtns 0 0; Fcvtns 1 1; Fcvtns 2 2; Sqxtn 0 0; Sqxtn2 0 1; Sqxtn 2 2;
   Sqxtun 0 0; Sqxtun2 0 2; St (SHalf 0); St (SLane 0 1 8)].
(* transform_kernels_arm_64.h 1085 *)
Definition Requantize_post10 : list instr :=
  [Ld (SFull 0); Ld (SFull 1); Ld (SHalf 2); Scvtf 0 0; Scvtf 1 1; Scvtf 2 2; Fsub 0 0 6; Fsub 1 1 6; Fsub 2 2 6;
   Fmul 0 0 7; Fmul 1 1 7; Fmul 2 2 7; Fadd 0 0 4; Fadd 1 1 4; Fadd 2 2 4; Fmul 0 0 8; Fmul 1 1 8; Fmul 2 2 8;
   Fadd 0 0 9; Fadd 1 1 9; Fadd 2 2 9; Fcvtns 0 0; Fcvtns 1 1; Fcvtns 2 2; Sqxtn 0 0; Sqxtn2 0 1; Sqxtn 2 2;
   Sqxtun 0 0; Sqxtun2 0 2; St (SHalf 0); St (SLane 0 2 4)].
(* transform_kernels_arm_64.h 1206 *)
Definition Requantize_post11 : list instr :=
  [Ld (SFull 0); Ld (SFull 1); Ld (SHalf 2); Ld (SLane 2 4 2); Scvtf 0 0; Scvtf 1 1; Scvtf 2 2; Fsub 0 0 6;
   Fsub 1 1 6; Fsub 2 2 6; Fmul 0 0 7; Fmul 1 1 7; Fmul 2 2 7; Fadd 0 0 4; Fadd 1 1 4; Fadd 2 2 4; Fmul 0 0 8;
   Fmul 1 1 8; Fmul 2 2 8; Fadd 0 0 9; Fadd 1 1 9; Fadd 2 2 9; Fcvtns 0 0; Fcvtns 1 1; Fcvtns 2 2; Sqxtn 0 0;
   Sqxtn2 0 1; Sqxtn 2 2; Sqxtun 0 0; Sqxtun2 0 2; St (SHalf 0); St (SLane 0 2 4); St (SLane 0 1 10)].
(* transform_kernels_arm_64.h 1329 *)
Definition Requantize_post12 : list instr :=
  [Ld (SFull 0); Ld (SFull 1); Ld (SFull 2); Scvtf 0 0; Scvtf 1 1; Scvtf 2 2; Fsub 0 0 6; Fsub 1 1 6; Fsub 2 2 6;
   Fmul 0 0 7; Fmul 1 1 7; Fmul 2 2 7; Fadd 0 0 4; Fadd 1 1 4; Fadd 2 2 4; Fmul 0 0 8; Fmul 1 1 8; Fmul 2 2 8;
   Fadd 0 0 9; Fadd 1 1 9; Fadd 2 2 9; Fcvtns 0 0; Fcvtns 1 1; Fcvtns 2 2; Sqxtn 0 0; Sqxtn2 0 1; Sqxtn 2 2;
   Sqxtun 0 0; Sqxtun2 0 2; St (SHalf 0); St (SLane 0 4 2)].
(* transform_kernels_arm_64.h 1449 *)
Definition Requantize_post13 : list instr :=
  [Ld (SFull 0); Ld (SFull 1); Ld (SFull 2); Ld (SLane 3 4 0); Scvtf 0 0; Scvtf 1 1; Scvtf 2 2; Scvtf 3 3;
   Fsub 0 0 6; Fsub 1 1 6; Fsub 2 2 6; Fsub 3 3 6; Fmul 0 0 7; Fmul 1 1 7; Fmul 2 2 7; Fmul 3 3 7; Fadd 0 0 4;
   Fadd 1 1 4; Fadd 2 2 4; Fadd 3 3 4; Fmul 0 0 8; Fmul 1 1 8; Fmul 2 2 8; Fmul 3 3 8; Fadd 0 0 9; Fadd 1 1 9;
   Fadd 2 2 9; Fadd 3 3 9; Fcvtns 0 0; Fcvtns 1 1; Fcvtns 2 2; Fcvtns 3 3; Sqxtn 0 0; Sqxtn2 0 1; Sqxtn 2 2;
   Sqxtn2 2 3; Sqxtun 0 0; Sqxtun2 0 2; St (SHalf 0); St (SLane 0 4 2); St (SLane 0 1 12)].
(* transform_kernels_arm_64.h 1579 *)
Definition Requantize_post14 : list instr :=
  [Ld (SFull 0); Ld (SFull 1); Ld (SFull 2); Ld (SHalf 3); Scvtf 0 0; Scvtf 1 1; Scvtf 2 2; Scvtf 3 3; Fsub 0 0 6;
   Fsub 1 1 6; Fsub 2 2 6; Fsub 3 3 6; Fmul 0 0 7; Fmul 1 1 7; Fmul 2 2 7; Fmul 3 3 7; Fadd 0 0 4; Fadd 1 1 4;
   Fadd 2 2 4; Fadd 3 3 4; Fmul 0 0 8; Fmul 1 1 8; Fmul 2 2 8; Fmul 3 3 8; Fadd 0 0 9; Fadd 1 1 9; Fadd 2 2 9;
   Fadd 3 3 9; Fcvtns 0 0; Fcvtns 1 1; Fcvtns 2 2; Fcvtns 3 3; Sqxtn 0 0; Sqxtn2 0 1; Sqxtn 2 2; Sqxtn2 2 3;
   Sqxtun 0 0; Sqxtun2 0 2; St (SHalf 0); St (SLane 0 4 2); St (SLane 0 2 6)].
(* transform_kernels_arm_64.h 1709 *)
Definition Requantize_post15 : list instr :=
  [Ld (SFull 0); Ld (SFull 1); Ld (SFull 2); Ld (SHalf 3); Ld (SLane 3 4 2); Scvtf 0 0; Scvtf 1 1; Scvtf 2 2;
   Scvtf 3 3; Fsub 0 0 6; Fsub 1 1 6; Fsub 2 2 6; Fsub 3 3 6; Fmul 0 0 7; Fmul 1 1 7; Fmul 2 2 7; Fmul 3 3 7;
   Fadd 0 0 4; Fadd 1 1 4; Fadd 2 2 4; Fadd 3 3 4; Fmul 0 0 8; Fmul 1 1 8; Fmul 2 2 8; Fmul 3 3 8; Fadd 0 0 9;
   Fadd 1 1 9; Fadd 2 2 9; Fadd 3 3 9; Fcvtns 0 0; Fcvtns 1 1; Fcvtns 2 2; Fcvtns 3 3; Sqxtn 0 0; Sqxtn2 0 1;
   Sqxtn 2 2; Sqxtn2 2 3; Sqxtun 0 0; Sqxtun2 0 2; St (SHalf 0); St (SLane 0 4 2); St (SLane 0 2 6); St (SLane 0 1 14)].
Definition Requantize_post (l : Z) : list instr :=
  match l with
  | 1 => Requantize_post1
  | 2 => Requantize_post2
  | 3 => Requantize_post3
  | 4 => Requantize_post4
  | 5 => Requantize_post5
  | 6 => Requantize_post6
  | 7 => Requantize_post7
  | 8 => Requantize_post8
  | 9 => Requantize_post9
  | 10 => Requantize_post10
  | 11 => Requantize_post11
  | 12 => Requantize_post12
  | 13 => Requantize_post13
  | 14 => Requantize_post14
  | 15 => Requantize_post15
  | _ => []
  end.

(* transform_kernels_arm_64.h 1841 *)
Definition Quantize_pre : list instr :=
  [Dup 4 4 P_range_min; Dup 5 4 P_range_offset; Dup 6 4 P_range_scale].
(* transform_kernels_arm_64.h 1841 *)
Definition Quantize_body : list instr :=
  [Ld (SFull 0); Ld (SFull 1); Ld (SFull 2); Ld (SFull 3); Fsub 0 0 4; Fsub 1 1 4; Fsub 2 2 4; Fsub 3 3 4;
   Fmul 0 0 6; Fmul 1 1 6; Fmul 2 2 6; Fmul 3 3 6; Fadd 0 0 5; Fadd 1 1 5; Fadd 2 2 5; Fadd 3 3 5; Fcvtzs 0 0;
   Fcvtzs 1 1; Fcvtzs 2 2; Fcvtzs 3 3; Sqxtn 0 0; Sqxtn2 0 1; Sqxtn 2 2; Sqxtn2 2 3; Sqxtun 0 0; Sqxtun2 0 2;
   St (SFull 0)].
(* transform_kernels_arm_64.h 1900 *)
Definition Quantize_post1 : list instr :=
  [Ld (SLane 0 4 0); Fsub 0 0 4; Fmul 0 0 6; Fadd 0 0 5; Fcvtzs 0 0; Sqxtn 0 0; Sqxtun 0 0; St (SLane 0 1 0)].
(* transform_kernels_arm_64.h 1979 *)
Definition Quantize_post2 : list instr :=
  [Ld (SHalf 0); Fsub 0 0 4; Fmul 0 0 6; Fadd 0 0 5; Fcvtzs 0 0; Sqxtn 0 0; Sqxtun 0 0; St (SLane 0 2 0)].
(* transform_kernels_arm_64.h 2058 *)
Definition Quantize_post3 : list instr :=
  [Ld (SHalf 0); Ld (SLane 0 4 2); Fsub 0 0 4; Fmul 0 0 6; Fadd 0 0 5; Fcvtzs 0 0; Sqxtn 0 0; Sqxtun 0 0;
   St (SLane 0 2 0); St (SLane 0 1 2)].
(* transform_kernels_arm_64.h 2139 *)
Definition Quantize_post4 : list instr :=
  [Ld (SFull 0); Fsub 0 0 4; Fmul 0 0 6; Fadd 0 0 5; Fcvtzs 0 0; Sqxtn 0 0; Sqxtun 0 0; St (SLane 0 4 0)].
(* transform_kernels_arm_64.h 2218 *)
Definition Quantize_post5 : list instr :=
  [Ld (SFull 0); Ld (SLane 1 4 0); Fsub 0 0 4; Fsub 1 1 4; Fmul 0 0 6; Fmul 1 1 6; Fadd 0 0 5; Fadd 1 1 5;
   Fcvtzs 0 0; Fcvtzs 1 1; Sqxtn 0 0; Sqxtn2 0 1; Sqxtun 0 0; St (SLane 0 4 0); St (SLane 0 1 4)].
(* transform_kernels_arm_64.h 2304 *)
Definition Quantize_post6 : list instr :=
  [Ld (SFull 0); Ld (SHalf 1); Fsub 0 0 4; Fsub 1 1 4; Fmul 0 0 6; Fmul 1 1 6; Fadd 0 0 5; Fadd 1 1 5; Fcvtzs 0 0;
   Fcvtzs 1 1; Sqxtn 0 0; Sqxtn2 0 1; Sqxtun 0 0; St (SLane 0 4 0); St (SLane 0 2 2)].
(* transform_kernels_arm_64.h 2390 *)
Definition Quantize_post7 : list instr :=
  [Ld (SFull 0); Ld (SHalf 1); Ld (SLane 1 4 2); Fsub 0 0 4; Fsub 1 1 4; Fmul 0 0 6; Fmul 1 1 6; Fadd 0 0 5;
   Fadd 1 1 5; Fcvtzs 0 0; Fcvtzs 1 1; Sqxtn 0 0; Sqxtn2 0 1; Sqxtun 0 0; St (SLane 0 4 0); St (SLane 0 2 2);
   St (SLane 0 1 6)].
(* transform_kernels_arm_64.h 2478 *)
Definition Quantize_post8 : list instr :=
  [Ld (SFull 0); Ld (SFull 1); Fsub 0 0 4; Fsub 1 1 4; Fmul 0 0 6; Fmul 1 1 6; Fadd 0 0 5; Fadd 1 1 5; Fcvtzs 0 0;
   Fcvtzs 1 1; Sqxtn 0 0; Sqxtn2 0 1; Sqxtun 0 0; St (SHalf 0)].
(* transform_kernels_arm_64.h 2562 *)
Definition Quantize_post9 : list instr :=
  [Ld (SFull 0); Ld (SFull 1); Ld (SLane 2 4 0); Fsub 0 0 4; Fsub 1 1 4; Fsub 2 2 4; Fmul 0 0 6; Fmul 1 1 6;
   Fmul 2 2 6; Fadd 0 0 5; Fadd 1 1 5; Fadd 2 2 5; Fcvtzs 0 0; Fcvtzs 1 1; Fcvtzs 2 2; Sqxtn 0 0; Sqxtn2 0 1;
   Sqxtn 2 2; Sqxtun 0 0; Sqxtun2 0 2; St (SHalf 0); St (SLane 0 1 8)].
(* transform_kernels_arm_64.h 2654 *)
Definition Quantize_post10 : list instr :=
  [Ld (SFull 0); Ld (SFull 1); Ld (SHalf 2); Fsub 0 0 4; Fsub 1 1 4; Fsub 2 2 4; Fmul 0 0 6; Fmul 1 1 6; Fmul 2 2 6;
   Fadd 0 0 5; Fadd 1 1 5; Fadd 2 2 5; Fcvtzs 0 0; Fcvtzs 1 1; Fcvtzs 2 2; Sqxtn 0 0; Sqxtn2 0 1; Sqxtn 2 2;
   Sqxtun 0 0; Sqxtun2 0 2; St (SHalf 0); St (SLane 0 2 4)].
(* transform_kernels_arm_64.h 2746 *)
Definition Quantize_post11 : list instr :=
  [Ld (SFull 0); Ld (SFull 1); Ld (SHalf 2); Ld (SLane 2 4 2); Fsub 0 0 4; Fsub 1 1 4; Fsub 2 2 4; Fmul 0 0 6;
   Fmul 1 1 6; Fmul 2 2 6; Fadd 0 0 5; Fadd 1 1 5; Fadd 2 2 5; Fcvtzs 0 0; Fcvtzs 1 1; Fcvtzs 2 2; Sqxtn 0 0;
   Sqxtn2 0 1; Sqxtn 2 2; Sqxtun 0 0; Sqxtun2 0 2; St (SHalf 0); St (SLane 0 2 4); St (SLane 0 1 10)].
(* transform_kernels_arm_64.h 2840 *)
Definition Quantize_post12 : list instr :=
  [Ld (SFull 0); Ld (SFull 1); Ld (SFull 2); Fsub 0 0 4; Fsub 1 1 4; Fsub 2 2 4; Fmul 0 0 6; Fmul 1 1 6; Fmul 2 2 6;
   Fadd 0 0 5; Fadd 1 1 5; Fadd 2 2 5; Fcvtzs 0 0; Fcvtzs 1 1; Fcvtzs 2 2; Sqxtn 0 0; Sqxtn2 0 1; Sqxtn 2 2;
   Sqxtun 0 0; Sqxtun2 0 2; St (SHalf 0); St (SLane 0 4 2)].
(* transform_kernels_arm_64.h 2931 *)
Definition Quantize_post13 : list instr :=
  [Ld (SFull 0); Ld (SFull 1); Ld (SFull 2); Ld (SLane 3 4 0); Fsub 0 0 4; Fsub 1 1 4; Fsub 2 2 4; Fsub 3 3 4;
   Fmul 0 0 6; Fmul 1 1 6; Fmul 2 2 6; Fmul 3 3 6; Fadd 0 0 5; Fadd 1 1 5; Fadd 2 2 5; Fadd 3 3 5; Fcvtzs 0 0;
   Fcvtzs 1 1; Fcvtzs 2 2; Fcvtzs 3 3; Sqxtn 0 0; Sqxtn2 0 1; Sqxtn 2 2; Sqxtn2 2 3; Sqxtun 0 0; Sqxtun2 0 2;
   St (SHalf 0); St (SLane 0 4 2); St (SLane 0 1 12)].
(* transform_kernels_arm_64.h 3029 *)
Definition Quantize_post14 : list instr :=
  [Ld (SFull 0); Ld (SFull 1); Ld (SFull 2); Ld (SHalf 3); Fsub 0 0 4; Fsub 1 1 4; Fsub 2 2 4; Fsub 3 3 4;
   Fmul 0 0 6; Fmul 1 1 6; Fmul 2 2 6; Fmul 3 3 6; Fadd 0 0 5; Fadd 1 1 5; Fadd 2 2 5; Fadd 3 3 5; Fcvtzs 0 0;
   Fcvtzs 1 1; Fcvtzs 2 2; Fcvtzs 3 3; Sqxtn 0 0; Sqxtn2 0 1; Sqxtn 2 2; Sqxtn2 2 3; Sqxtun 0 0; Sqxtun2 0 2;
   St (SHalf 0); St (SLane 0 4 2); St (SLane 0 2 6)].
(* transform_kernels_arm_64.h 3127 *)
Definition Quantize_post15 : list instr :=
  [Ld (SFull 0); Ld (SFull 1); Ld (SFull 2); Ld (SHalf 3); Ld (SLane 3 4 2); Fsub 0 0 4; Fsub 1 1 4; Fsub 2 2 4;
   Fsub 3 3 4; Fmul 0 0 6; Fmul 1 1 6; Fmul 2 2 6; Fmul 3 3 6; Fadd 0 0 5; Fadd 1 1 5; Fadd 2 2 5; Fadd 3 3 5;
   Fcvtzs 0 0; Fcvtzs 1 1; Fcvtzs 2 2; Fcvtzs 3 3; Sqxtn 0 0; Sqxtn2 0 1; Sqxtn 2 2; Sqxtn2 2 3; Sqxtun 0 0;
   Sqxtun2 0 2; St (SHalf 0); St (SLane 0 4 2); St (SLane 0 2 6); St (SLane 0 1 14)].
Definition Quantize_post (l : Z) : list instr :=
  match l with
  | 1 => Quantize_post1
  | 2 => Quantize_post2
  | 3 => Quantize_post3
  | 4 => Quantize_post4
  | 5 => Quantize_post5
  | 6 => Quantize_post6
  | 7 => Quantize_post7
  | 8 => Quantize_post8
  | 9 => Quantize_post9
  | 10 => Quantize_post10
  | 11 => Quantize_post11
  | 12 => Quantize_post12
  | 13 => Quantize_post13
  | 14 => Quantize_post14
  | 15 => Quantize_post15
  | _ => []
  end.

(* transform_kernels_arm_64.h 3227 *)
Definition Dequantize_pre : list instr :=
  [Dup 4 4 P_range_min; Dup 5 4 P_range_offset; Dup 6 4 P_range_scale].
(* transform_kernels_arm_64.h 3227 *)
Definition Dequantize_body : list instr :=
  [Ld (SFull 0); Uxtl2 1 0; Uxtl 0 0; Sxtl2 3 1; Sxtl 2 1; Sxtl2 1 0; Sxtl 0 0; Scvtf 0 0; Scvtf 1 1; Scvtf 2 2;
   Scvtf 3 3; Fsub 0 0 5; Fsub 1 1 5; Fsub 2 2 5; Fsub 3 3 5; Fmul 0 0 6; Fmul 1 1 6; Fmul 2 2 6; Fmul 3 3 6;
   Fadd 0 0 4; Fadd 1 1 4; Fadd 2 2 4; Fadd 3 3 4; St (SFull 0); St (SFull 1); St (SFull 2); St (SFull 3)].
(* transform_kernels_arm_64.h 3286 *)
Definition Dequantize_post1 : list instr :=
  [Ld (SLane 0 1 0); Uxtl 0 0; Sxtl 0 0; Scvtf 0 0; Fsub 0 0 5; Fmul 0 0 6; Fadd 0 0 4; St (SLane 0 4 0)].
(* transform_kernels_arm_64.h 3365 *)
Definition Dequantize_post2 : list instr :=
  [Ld (SLane 0 2 0); Uxtl 0 0; Sxtl 0 0; Scvtf 0 0; Fsub 0 0 5; Fmul 0 0 6; Fadd 0 0 4; St (SHalf 0)].
(* transform_kernels_arm_64.h 3444 *)
Definition Dequantize_post3 : list instr :=
  [Ld (SLane 0 2 0); Ld (SLane 0 1 2); Uxtl 0 0; Sxtl 0 0; Scvtf 0 0; Fsub 0 0 5; Fmul 0 0 6; Fadd 0 0 4;
   St (SHalf 0); St (SLane 0 4 2)].
(* transform_kernels_arm_64.h 3525 *)
Definition Dequantize_post4 : list instr :=
  [Ld (SLane 0 4 0); Uxtl 0 0; Sxtl 0 0; Scvtf 0 0; Fsub 0 0 5; Fmul 0 0 6; Fadd 0 0 4; St (SFull 0)].
(* transform_kernels_arm_64.h 3604 *)
Definition Dequantize_post5 : list instr :=
  [Ld (SLane 0 4 0); Ld (SLane 0 1 4); Uxtl 0 0; Sxtl2 1 0; Sxtl 0 0; Scvtf 0 0; Scvtf 1 1; Fsub 0 0 5; Fsub 1 1 5;
   Fmul 0 0 6; Fmul 1 1 6; Fadd 0 0 4; Fadd 1 1 4; St (SFull 0); St (SLane 1 4 0)].
(* transform_kernels_arm_64.h 3690 *)
Definition Dequantize_post6 : list instr :=
  [Ld (SLane 0 4 0); Ld (SLane 0 2 2); Uxtl 0 0; Sxtl2 1 0; Sxtl 0 0; Scvtf 0 0; Scvtf 1 1; Fsub 0 0 5; Fsub 1 1 5;
   Fmul 0 0 6; Fmul 1 1 6; Fadd 0 0 4; Fadd 1 1 4; St (SFull 0); St (SHalf 1)].
(* transform_kernels_arm_64.h 3776 *)
Definition Dequantize_post7 : list instr :=
  [Ld (SLane 0 4 0); Ld (SLane 0 2 2); Ld (SLane 0 1 6); Uxtl 0 0; Sxtl2 1 0; Sxtl 0 0; Scvtf 0 0; Scvtf 1 1;
   Fsub 0 0 5; Fsub 1 1 5; Fmul 0 0 6; Fmul 1 1 6; Fadd 0 0 4; Fadd 1 1 4; St (SFull 0); St (SHalf 1);
   St (SLane 1 4 2)].
(* transform_kernels_arm_64.h 3864 *)
Definition Dequantize_post8 : list instr :=
  [Ld (SHalf 0); Uxtl 0 0; Sxtl2 1 0; Sxtl 0 0; Scvtf 0 0; Scvtf 1 1; Fsub 0 0 5; Fsub 1 1 5; Fmul 0 0 6; Fmul 1 1 6;
   Fadd 0 0 4; Fadd 1 1 4; St (SFull 0); St (SFull 1)].
(* transform_kernels_arm_64.h 3948 *)
Definition Dequantize_post9 : list instr :=
  [Ld (SHalf 0); Ld (SLane 0 1 8); Uxtl2 1 0; Uxtl 0 0; Sxtl 2 1; Sxtl2 1 0; Sxtl 0 0; Scvtf 0 0; Scvtf 1 1;
   Scvtf 2 2; Fsub 0 0 5; Fsub 1 1 5; Fsub 2 2 5; Fmul 0 0 6; Fmul 1 1 6; Fmul 2 2 6; Fadd 0 0 4; Fadd 1 1 4;
   Fadd 2 2 4; St (SFull 0); St (SFull 1); St (SLane 2 4 0)].
(* transform_kernels_arm_64.h 4040 *)
Definition Dequantize_post10 : list instr :=
  [Ld (SHalf 0); Ld (SLane 0 2 4); Uxtl2 1 0; Uxtl 0 0; Sxtl 2 1; Sxtl2 1 0; Sxtl 0 0; Scvtf 0 0; Scvtf 1 1;
   Scvtf 2 2; Fsub 0 0 5; Fsub 1 1 5; Fsub 2 2 5; Fmul 0 0 6; Fmul 1 1 6; Fmul 2 2 6; Fadd 0 0 4; Fadd 1 1 4;
   Fadd 2 2 4; St (SFull 0); St (SFull 1); St (SHalf 2)].
(* transform_kernels_arm_64.h 4132 *)
Definition Dequantize_post11 : list instr :=
  [Ld (SHalf 0); Ld (SLane 0 2 4); Ld (SLane 0 1 10); Uxtl2 1 0; Uxtl 0 0; Sxtl 2 1; Sxtl2 1 0; Sxtl 0 0; Scvtf 0 0;
   Scvtf 1 1; Scvtf 2 2; Fsub 0 0 5; Fsub 1 1 5; Fsub 2 2 5; Fmul 0 0 6; Fmul 1 1 6; Fmul 2 2 6; Fadd 0 0 4;
   Fadd 1 1 4; Fadd 2 2 4; St (SFull 0); St (SFull 1); St (SHalf 2); St (SLane 2 4 2)].
(* transform_kernels_arm_64.h 4226 *)
Definition Dequantize_post12 : list instr :=
  [Ld (SHalf 0); Ld (SLane 0 4 2); Uxtl2 1 0; Uxtl 0 0; Sxtl 2 1; Sxtl2 1 0; Sxtl 0 0; Scvtf 0 0; Scvtf 1 1;
   Scvtf 2 2; Fsub 0 0 5; Fsub 1 1 5; Fsub 2 2 5; Fmul 0 0 6; Fmul 1 1 6; Fmul 2 2 6; Fadd 0 0 4; Fadd 1 1 4;
   Fadd 2 2 4; St (SFull 0); St (SFull 1); St (SFull 2)].
(* transform_kernels_arm_64.h 4317 *)
Definition Dequantize_post13 : list instr :=
  [Ld (SHalf 0); Ld (SLane 0 4 2); Ld (SLane 0 1 12); Uxtl2 1 0; Uxtl 0 0; Sxtl2 3 1; Sxtl 2 1; Sxtl2 1 0; Sxtl 0 0;
   Scvtf 0 0; Scvtf 1 1; Scvtf 2 2; Scvtf 3 3; Fsub 0 0 5; Fsub 1 1 5; Fsub 2 2 5; Fsub 3 3 5; Fmul 0 0 6;
   Fmul 1 1 6; Fmul 2 2 6; Fmul 3 3 6; Fadd 0 0 4; Fadd 1 1 4; Fadd 2 2 4; Fadd 3 3 4; St (SFull 0); St (SFull 1);
   St (SFull 2); St (SLane 3 4 0)].
(* transform_kernels_arm_64.h 4415 *)
Definition Dequantize_post14 : list instr :=
  [Ld (SHalf 0); Ld (SLane 0 4 2); Ld (SLane 0 2 6); Uxtl2 1 0; Uxtl 0 0; Sxtl2 3 1; Sxtl 2 1; Sxtl2 1 0; Sxtl 0 0;
   Scvtf 0 0; Scvtf 1 1; Scvtf 2 2; Scvtf 3 3; Fsub 0 0 5; Fsub 1 1 5; Fsub 2 2 5; Fsub 3 3 5; Fmul 0 0 6;
   Fmul 1 1 6; Fmul 2 2 6; Fmul 3 3 6; Fadd 0 0 4; Fadd 1 1 4; Fadd 2 2 4; Fadd 3 3 4; St (SFull 0); St (SFull 1);
   St (SFull 2); St (SHalf 3)].
(* transform_kernels_arm_64.h 4513 *)
Definition Dequantize_post15 : list instr :=
  [Ld (SHalf 0); Ld (SLane 0 4 2); Ld (SLane 0 2 6); Ld (SLane 0 1 14); Uxtl2 1 0; Uxtl 0 0; Sxtl2 3 1; Sxtl 2 1;
   Sxtl2 1 0; Sxtl 0 0; Scvtf 0 0; Scvtf 1 1; Scvtf 2 2; Scvtf 3 3; Fsub 0 0 5; Fsub 1 1 5; Fsub 2 2 5; Fsub 3 3 5;
   Fmul 0 0 6; Fmul 1 1 6; Fmul 2 2 6; Fmul 3 3 6; Fadd 0 0 4; Fadd 1 1 4; Fadd 2 2 4; Fadd 3 3 4; St (SFull 0);
   St (SFull 1); St (SFull 2); St (SHalf 3); St (SLane 3 4 2)].
Definition Dequantize_post (l : Z) : list instr :=
  match l with
  | 1 => Dequantize_post1
  | 2 => Dequantize_post2
  | 3 => Dequantize_post3
  | 4 => Dequantize_post4
  | 5 => Dequantize_post5
  | 6 => Dequantize_post6
  | 7 => Dequantize_post7
  | 8 => Dequantize_post8
  | 9 => Dequantize_post9
  | 10 => Dequantize_post10
  | 11 => Dequantize_post11
  | 12 => Dequantize_post12
  | 13 => Dequantize_post13
  | 14 => Dequantize_post14
  | 15 => Dequantize_post15
  | _ => []
  end.

(* transform_kernels_arm_64.h 4613 *)
Definition MinMax_pre : list instr :=
  [Dup 4 1 P_min; Dup 5 1 P_max].
(* transform_kernels_arm_64.h 4613 *)
Definition MinMax_body : list instr :=
  [Ld (SFull 0); Umax 0 0 4; Umin 0 0 5; St (SFull 0)].
(* transform_kernels_arm_64.h 4653 *)
Definition MinMax_post1 : list instr :=
  [Ld (SLane 0 1 0); Umax 0 0 4; Umin 0 0 5; St (SLane 0 1 0)].
(* transform_kernels_arm_64.h 4709 *)
Definition MinMax_post2 : list instr :=
  [Ld (SLane 0 2 0); Umax 0 0 4; Umin 0 0 5; St (SLane 0 2 0)].
(* transform_kernels_arm_64.h 4765 *)
Definition MinMax_post3 : list instr :=
  [Ld (SLane 0 2 0); Ld (SLane 0 1 2); Umax 0 0 4; Umin 0 0 5; St (SLane 0 2 0); St (SLane 0 1 2)].
(* transform_kernels_arm_64.h 4823 *)
Definition MinMax_post4 : list instr :=
  [Ld (SLane 0 4 0); Umax 0 0 4; Umin 0 0 5; St (SLane 0 4 0)].
(* transform_kernels_arm_64.h 4879 *)
Definition MinMax_post5 : list instr :=
  [Ld (SLane 0 4 0); Ld (SLane 0 1 4); Umax 0 0 4; Umin 0 0 5; St (SLane 0 4 0); St (SLane 0 1 4)].
(* transform_kernels_arm_64.h 4937 *)
Definition MinMax_post6 : list instr :=
  [Ld (SLane 0 4 0); Ld (SLane 0 2 2); Umax 0 0 4; Umin 0 0 5; St (SLane 0 4 0); St (SLane 0 2 2)].
(* transform_kernels_arm_64.h 4995 *)
Definition MinMax_post7 : list instr :=
  [Ld (SLane 0 4 0); Ld (SLane 0 2 2); Ld (SLane 0 1 6); Umax 0 0 4; Umin 0 0 5; St (SLane 0 4 0); St (SLane 0 2 2);
   St (SLane 0 1 6)].
(* transform_kernels_arm_64.h 5055 *)
Definition MinMax_post8 : list instr :=
  [Ld (SHalf 0); Umax 0 0 4; Umin 0 0 5; St (SHalf 0)].
(* transform_kernels_arm_64.h 5111 *)
Definition MinMax_post9 : list instr :=
  [Ld (SHalf 0); Ld (SLane 0 1 8); Umax 0 0 4; Umin 0 0 5; St (SHalf 0); St (SLane 0 1 8)].
(* transform_kernels_arm_64.h 5169 *)
Definition MinMax_post10 : list instr :=
  [Ld (SHalf 0); Ld (SLane 0 2 4); Umax 0 0 4; Umin 0 0 5; St (SHalf 0); St (SLane 0 2 4)].
(* transform_kernels_arm_64.h 5227 *)
Definition MinMax_post11 : list instr :=
  [Ld (SHalf 0); Ld (SLane 0 2 4); Ld (SLane 0 1 10); Umax 0 0 4; Umin 0 0 5; St (SHalf 0); St (SLane 0 2 4);
   St (SLane 0 1 10)].
(* transform_kernels_arm_64.h 5287 *)
Definition MinMax_post12 : list instr :=
  [Ld (SHalf 0); Ld (SLane 0 4 2); Umax 0 0 4; Umin 0 0 5; St (SHalf 0); St (SLane 0 4 2)].
(* transform_kernels_arm_64.h 5345 *)
Definition MinMax_post13 : list instr :=
  [Ld (SHalf 0); Ld (SLane 0 4 2); Ld (SLane 0 1 12); Umax 0 0 4; Umin 0 0 5; St (SHalf 0); St (SLane 0 4 2);
   St (SLane 0 1 12)].
(* transform_kernels_arm_64.h 5405 *)
Definition MinMax_post14 : list instr :=
  [Ld (SHalf 0); Ld (SLane 0 4 2); Ld (SLane 0 2 6); Umax 0 0 4; Umin 0 0 5; St (SHalf 0); St (SLane 0 4 2);
   St (SLane 0 2 6)].
(* transform_kernels_arm_64.h 5465 *)
Definition MinMax_post15 : list instr :=
  [Ld (SHalf 0); Ld (SLane 0 4 2); Ld (SLane 0 2 6); Ld (SLane 0 1 14); Umax 0 0 4; Umin 0 0 5; St (SHalf 0);
   St (SLane 0 4 2); St (SLane 0 2 6); St (SLane 0 1 14)].
Definition MinMax_post (l : Z) : list instr :=
  match l with
  | 1 => MinMax_post1
  | 2 => MinMax_post2
  | 3 => MinMax_post3
  | 4 => MinMax_post4
  | 5 => MinMax_post5
  | 6 => MinMax_post6
  | 7 => MinMax_post7
  | 8 => MinMax_post8
  | 9 => MinMax_post9
  | 10 => MinMax_post10
  | 11 => MinMax_post11
  | 12 => MinMax_post12
  | 13 => MinMax_post13
  | 14 => MinMax_post14
  | 15 => MinMax_post15
  | _ => []
  end.

(* transform_kernels_arm_64.h 5527 *)
Definition BiasAdd_pre : list instr :=
  [Ldr P_input_range_min; DupW0 8 4; Ldr P_input_range_scale; DupW0 9 4; Ldr P_bias_range_min; DupW0 10 4;
   Ldr P_bias_range_scale; DupW0 11 4; Ldr P_output_range_min; DupW0 12 4; Ldr P_one_over_output_range_scale;
   DupW0 13 4; Ldr P_output_range_offset; DupW0 14 4].
(* transform_kernels_arm_64.h 5527 *)
Definition BiasAdd_body : list instr :=
  [Ld (SFull 0); LdBias (SFull 4); Uxtl2 1 0; Uxtl 0 0; Uxtl2 5 4; Uxtl 4 4; Sxtl2 3 1; Sxtl 2 1; Sxtl2 7 5;
   Sxtl 6 5; Sxtl2 1 0; Sxtl 0 0; Sxtl2 5 4; Sxtl 4 4; Scvtf 0 0; Scvtf 1 1; Scvtf 2 2; Scvtf 3 3; Scvtf 4 4;
   Scvtf 5 5; Scvtf 6 6; Scvtf 7 7; Fmul 0 0 9; Fmul 1 1 9; Fmul 2 2 9; Fmul 3 3 9; Fmul 4 4 11; Fmul 5 5 11;
   Fmul 6 6 11; Fmul 7 7 11; Fadd 0 0 8; Fadd 1 1 8; Fadd 2 2 8; Fadd 3 3 8; Fadd 4 4 10; Fadd 5 5 10; Fadd 6 6 10;
   Fadd 7 7 10; Fadd 0 0 4; Fadd 1 1 5; Fadd 2 2 6; Fadd 3 3 7; Fsub 0 0 12; Fsub 1 1 12; Fsub 2 2 12; Fsub 3 3 12;
   Fmul 0 0 13; Fmul 1 1 13; Fmul 2 2 13; Fmul 3 3 13; Fadd 0 0 14; Fadd 1 1 14; Fadd 2 2 14; Fadd 3 3 14;
   Fcvtzs 0 0; Fcvtzs 1 1; Fcvtzs 2 2; Fcvtzs 3 3; St (SFull 0); St (SFull 1); St (SFull 2); St (SFull 3)].
(* transform_kernels_arm_64.h 5642 *)
Definition BiasAdd_post1 : list instr :=
  [Ld (SLane 0 1 0); LdBias (SLane 1 1 0); Uxtl 0 0; Uxtl 1 1; Sxtl 0 0; Sxtl 1 1; Scvtf 0 0; Scvtf 1 1; Fmul 0 0 9;
   Fmul 1 1 11; Fadd 0 0 8; Fadd 1 1 10; Fadd 0 0 1; Fsub 0 0 12; Fmul 0 0 13; Fadd 0 0 14; Fcvtzs 0 0;
   St (SLane 0 4 0)].
(* transform_kernels_arm_64.h 5783 *)
Definition BiasAdd_post2 : list instr :=
  [Ld (SLane 0 2 0); LdBias (SLane 1 2 0); Uxtl 0 0; Uxtl 1 1; Sxtl 0 0; Sxtl 1 1; Scvtf 0 0; Scvtf 1 1; Fmul 0 0 9;
   Fmul 1 1 11; Fadd 0 0 8; Fadd 1 1 10; Fadd 0 0 1; Fsub 0 0 12; Fmul 0 0 13; Fadd 0 0 14; Fcvtzs 0 0; St (SHalf 0)].
(* transform_kernels_arm_64.h 5924 *)
Definition BiasAdd_post3 : list instr :=
  [Ld (SLane 0 2 0); Ld (SLane 0 1 2); LdBias (SLane 1 2 0); LdBias (SLane 1 1 2); Uxtl 0 0; Uxtl 1 1; Sxtl 0 0;
   Sxtl 1 1; Scvtf 0 0; Scvtf 1 1; Fmul 0 0 9; Fmul 1 1 11; Fadd 0 0 8; Fadd 1 1 10; Fadd 0 0 1; Fsub 0 0 12;
   Fmul 0 0 13; Fadd 0 0 14; Fcvtzs 0 0; St (SHalf 0); St (SLane 0 4 2)].
(* transform_kernels_arm_64.h 6068 *)
Definition BiasAdd_post4 : list instr :=
  [Ld (SLane 0 4 0); LdBias (SLane 1 4 0); Uxtl 0 0; Uxtl 1 1; Sxtl 0 0; Sxtl 1 1; Scvtf 0 0; Scvtf 1 1; Fmul 0 0 9;
   Fmul 1 1 11; Fadd 0 0 8; Fadd 1 1 10; Fadd 0 0 1; Fsub 0 0 12; Fmul 0 0 13; Fadd 0 0 14; Fcvtzs 0 0; St (SFull 0)].
(* transform_kernels_arm_64.h 6209 *)
Definition BiasAdd_post5 : list instr :=
  [Ld (SLane 0 4 0); Ld (SLane 0 1 4); LdBias (SLane 2 4 0); LdBias (SLane 2 1 4); Uxtl 0 0; Uxtl 2 2; Sxtl2 1 0;
   Sxtl 0 0; Sxtl2 3 2; Sxtl 2 2; Scvtf 0 0; Scvtf 1 1; Scvtf 2 2; Scvtf 3 3; Fmul 0 0 9; Fmul 1 1 9; Fmul 2 2 11;
   Fmul 3 3 11; Fadd 0 0 8; Fadd 1 1 8; Fadd 2 2 10; Fadd 3 3 10; Fadd 0 0 2; Fadd 1 1 3; Fsub 0 0 12; Fsub 1 1 12;
   Fmul 0 0 13; Fmul 1 1 13; Fadd 0 0 14; Fadd 1 1 14; Fcvtzs 0 0; Fcvtzs 1 1; St (SFull 0); St (SLane 1 4 0)].
(* transform_kernels_arm_64.h 6366 *)
Definition BiasAdd_post6 : list instr :=
  [Ld (SLane 0 4 0); Ld (SLane 0 2 2); LdBias (SLane 2 4 0); LdBias (SLane 2 2 2); Uxtl 0 0; Uxtl 2 2; Sxtl2 1 0;
   Sxtl 0 0; Sxtl2 3 2; Sxtl 2 2; Scvtf 0 0; Scvtf 1 1; Scvtf 2 2; Scvtf 3 3; Fmul 0 0 9; Fmul 1 1 9; Fmul 2 2 11;
   Fmul 3 3 11; Fadd 0 0 8; Fadd 1 1 8; Fadd 2 2 10; Fadd 3 3 10; Fadd 0 0 2; Fadd 1 1 3; Fsub 0 0 12; Fsub 1 1 12;
   Fmul 0 0 13; Fmul 1 1 13; Fadd 0 0 14; Fadd 1 1 14; Fcvtzs 0 0; Fcvtzs 1 1; St (SFull 0); St (SHalf 1)].
(* transform_kernels_arm_64.h 6523 *)
Definition BiasAdd_post7 : list instr :=
  [Ld (SLane 0 4 0); Ld (SLane 0 2 2); Ld (SLane 0 1 6); LdBias (SLane 2 4 0); LdBias (SLane 2 2 2);
   LdBias (SLane 2 1 6); Uxtl 0 0; Uxtl 2 2; Sxtl2 1 0; Sxtl 0 0; Sxtl2 3 2; Sxtl 2 2; Scvtf 0 0; Scvtf 1 1;
   Scvtf 2 2; Scvtf 3 3; Fmul 0 0 9; Fmul 1 1 9; Fmul 2 2 11; Fmul 3 3 11; Fadd 0 0 8; Fadd 1 1 8; Fadd 2 2 10;
   Fadd 3 3 10; Fadd 0 0 2; Fadd 1 1 3; Fsub 0 0 12; Fsub 1 1 12; Fmul 0 0 13; Fmul 1 1 13; Fadd 0 0 14; Fadd 1 1 14;
   Fcvtzs 0 0; Fcvtzs 1 1; St (SFull 0); St (SHalf 1); St (SLane 1 4 2)].
(* transform_kernels_arm_64.h 6683 *)
Definition BiasAdd_post8 : list instr :=
  [Ld (SHalf 0); LdBias (SHalf 2); Uxtl 0 0; Uxtl 2 2; Sxtl2 1 0; Sxtl 0 0; Sxtl2 3 2; Sxtl 2 2; Scvtf 0 0;
   Scvtf 1 1; Scvtf 2 2; Scvtf 3 3; Fmul 0 0 9; Fmul 1 1 9; Fmul 2 2 11; Fmul 3 3 11; Fadd 0 0 8; Fadd 1 1 8;
   Fadd 2 2 10; Fadd 3 3 10; Fadd 0 0 2; Fadd 1 1 3; Fsub 0 0 12; Fsub 1 1 12; Fmul 0 0 13; Fmul 1 1 13; Fadd 0 0 14;
   Fadd 1 1 14; Fcvtzs 0 0; Fcvtzs 1 1; St (SFull 0); St (SFull 1)].
(* transform_kernels_arm_64.h 6837 *)
Definition BiasAdd_post9 : list instr :=
  [Ld (SHalf 0); Ld (SLane 0 1 8); LdBias (SHalf 3); LdBias (SLane 3 1 8); Uxtl2 1 0; Uxtl 0 0; Uxtl2 4 3; Uxtl 3 3;
   Sxtl 2 1; Sxtl 5 4; Sxtl2 1 0; Sxtl 0 0; Sxtl2 4 3; Sxtl 3 3; Scvtf 0 0; Scvtf 1 1; Scvtf 2 2; Scvtf 3 3;
   Scvtf 4 4; Scvtf 5 5; Fmul 0 0 9; Fmul 1 1 9; Fmul 2 2 9; Fmul 3 3 11; Fmul 4 4 11; Fmul 5 5 11; Fadd 0 0 8;
   Fadd 1 1 8; Fadd 2 2 8; Fadd 3 3 10; Fadd 4 4 10; Fadd 5 5 10; Fadd 0 0 3; Fadd 1 1 4; Fadd 2 2 5; Fsub 0 0 12;
   Fsub 1 1 12; Fsub 2 2 12; Fmul 0 0 13; Fmul 1 1 13; Fmul 2 2 13; Fadd 0 0 14; Fadd 1 1 14; Fadd 2 2 14;
   Fcvtzs 0 0; Fcvtzs 1 1; Fcvtzs 2 2; St (SFull 0); St (SFull 1); St (SLane 2 4 0)].
(* transform_kernels_arm_64.h 7009 *)
Definition BiasAdd_post10 : list instr :=
  [Ld (SHalf 0); Ld (SLane 0 2 4); LdBias (SHalf 3); LdBias (SLane 3 2 4); Uxtl2 1 0; Uxtl 0 0; Uxtl2 4 3; Uxtl 3 3;
   Sxtl 2 1; Sxtl 5 4; Sxtl2 1 0; Sxtl 0 0; Sxtl2 4 3; Sxtl 3 3; Scvtf 0 0; Scvtf 1 1; Scvtf 2 2; Scvtf 3 3;
   Scvtf 4 4; Scvtf 5 5; Fmul 0 0 9; Fmul 1 1 9; Fmul 2 2 9; Fmul 3 3 11; Fmul 4 4 11; Fmul 5 5 11; Fadd 0 0 8;
   Fadd 1 1 8; Fadd 2 2 8; Fadd 3 3 10; Fadd 4 4 10; Fadd 5 5 10; Fadd 0 0 3; Fadd 1 1 4; Fadd 2 2 5; Fsub 0 0 12;
   Fsub 1 1 12; Fsub 2 2 12; Fmul 0 0 13; Fmul 1 1 13; Fmul 2 2 13; Fadd 0 0 14; Fadd 1 1 14; Fadd 2 2 14;
   Fcvtzs 0 0; Fcvtzs 1 1; Fcvtzs 2 2; St (SFull 0); St (SFull 1); St (SHalf 2)].
(* transform_kernels_arm_64.h 7181 *)
Definition BiasAdd_post11 : list instr :=
  [Ld (SHalf 0); Ld (SLane 0 2 4); Ld (SLane 0 1 10); LdBias (SHalf 3); LdBias (SLane 3 2 4); LdBias (SLane 3 1 10);
   Uxtl2 1 0; Uxtl 0 0; Uxtl2 4 3; Uxtl 3 3; Sxtl 2 1; Sxtl 5 4; Sxtl2 1 0; Sxtl 0 0; Sxtl2 4 3; Sxtl 3 3; Scvtf 0 0;
   Scvtf 1 1; Scvtf 2 2; Scvtf 3 3; Scvtf 4 4; Scvtf 5 5; Fmul 0 0 9; Fmul 1 1 9; Fmul 2 2 9; Fmul 3 3 11;
   Fmul 4 4 11; Fmul 5 5 11; Fadd 0 0 8; Fadd 1 1 8; Fadd 2 2 8; Fadd 3 3 10; Fadd 4 4 10; Fadd 5 5 10; Fadd 0 0 3;
   Fadd 1 1 4; Fadd 2 2 5; Fsub 0 0 12; Fsub 1 1 12; Fsub 2 2 12; Fmul 0 0 13; Fmul 1 1 13; Fmul 2 2 13; Fadd 0 0 14;
   Fadd 1 1 14; Fadd 2 2 14; Fcvtzs 0 0; Fcvtzs 1 1; Fcvtzs 2 2; St (SFull 0); St (SFull 1); St (SHalf 2);
   St (SLane 2 4 2)].
(* transform_kernels_arm_64.h 7356 *)
Definition BiasAdd_post12 : list instr :=
  [Ld (SHalf 0); Ld (SLane 0 4 2); LdBias (SHalf 3); LdBias (SLane 3 4 2); Uxtl2 1 0; Uxtl 0 0; Uxtl2 4 3; Uxtl 3 3;
   Sxtl 2 1; Sxtl 5 4; Sxtl2 1 0; Sxtl 0 0; Sxtl2 4 3; Sxtl 3 3; Scvtf 0 0; Scvtf 1 1; Scvtf 2 2; Scvtf 3 3;
   Scvtf 4 4; Scvtf 5 5; Fmul 0 0 9; Fmul 1 1 9; Fmul 2 2 9; Fmul 3 3 11; Fmul 4 4 11; Fmul 5 5 11; Fadd 0 0 8;
   Fadd 1 1 8; Fadd 2 2 8; Fadd 3 3 10; Fadd 4 4 10; Fadd 5 5 10; Fadd 0 0 3; Fadd 1 1 4; Fadd 2 2 5; Fsub 0 0 12;
   Fsub 1 1 12; Fsub 2 2 12; Fmul 0 0 13; Fmul 1 1 13; Fmul 2 2 13; Fadd 0 0 14; Fadd 1 1 14; Fadd 2 2 14;
   Fcvtzs 0 0; Fcvtzs 1 1; Fcvtzs 2 2; St (SFull 0); St (SFull 1); St (SFull 2)].
(* transform_kernels_arm_64.h 7527 *)
Definition BiasAdd_post13 : list instr :=
  [Ld (SHalf 0); Ld (SLane 0 4 2); Ld (SLane 0 1 12); LdBias (SHalf 4); LdBias (SLane 4 4 2); LdBias (SLane 4 1 12);
   Uxtl2 1 0; Uxtl 0 0; Uxtl2 5 4; Uxtl 4 4; Sxtl2 3 1; Sxtl 2 1; Sxtl2 7 5; Sxtl 6 5; Sxtl2 1 0; Sxtl 0 0;
   Sxtl2 5 4; Sxtl 4 4; Scvtf 0 0; Scvtf 1 1; Scvtf 2 2; Scvtf 3 3; Scvtf 4 4; Scvtf 5 5; Scvtf 6 6; Scvtf 7 7;
   Fmul 0 0 9; Fmul 1 1 9; Fmul 2 2 9; Fmul 3 3 9; Fmul 4 4 11; Fmul 5 5 11; Fmul 6 6 11; Fmul 7 7 11; Fadd 0 0 8;
   Fadd 1 1 8; Fadd 2 2 8; Fadd 3 3 8; Fadd 4 4 10; Fadd 5 5 10; Fadd 6 6 10; Fadd 7 7 10; Fadd 0 0 4; Fadd 1 1 5;
   Fadd 2 2 6; Fadd 3 3 7; Fsub 0 0 12; Fsub 1 1 12; Fsub 2 2 12; Fsub 3 3 12; Fmul 0 0 13; Fmul 1 1 13; Fmul 2 2 13;
   Fmul 3 3 13; Fadd 0 0 14; Fadd 1 1 14; Fadd 2 2 14; Fadd 3 3 14; Fcvtzs 0 0; Fcvtzs 1 1; Fcvtzs 2 2; Fcvtzs 3 3;
   St (SFull 0); St (SFull 1); St (SFull 2); St (SLane 3 4 0)].
(* transform_kernels_arm_64.h 7714 *)
Definition BiasAdd_post14 : list instr :=
  [Ld (SHalf 0); Ld (SLane 0 4 2); Ld (SLane 0 2 6); LdBias (SHalf 4); LdBias (SLane 4 4 2); LdBias (SLane 4 2 6);
   Uxtl2 1 0; Uxtl 0 0; Uxtl2 5 4; Uxtl 4 4; Sxtl2 3 1; Sxtl 2 1; Sxtl2 7 5; Sxtl 6 5; Sxtl2 1 0; Sxtl 0 0;
   Sxtl2 5 4; Sxtl 4 4; Scvtf 0 0; Scvtf 1 1; Scvtf 2 2; Scvtf 3 3; Scvtf 4 4; Scvtf 5 5; Scvtf 6 6; Scvtf 7 7;
   Fmul 0 0 9; Fmul 1 1 9; Fmul 2 2 9; Fmul 3 3 9; Fmul 4 4 11; Fmul 5 5 11; Fmul 6 6 11; Fmul 7 7 11; Fadd 0 0 8;
   Fadd 1 1 8; Fadd 2 2 8; Fadd 3 3 8; Fadd 4 4 10; Fadd 5 5 10; Fadd 6 6 10; Fadd 7 7 10; Fadd 0 0 4; Fadd 1 1 5;
   Fadd 2 2 6; Fadd 3 3 7; Fsub 0 0 12; Fsub 1 1 12; Fsub 2 2 12; Fsub 3 3 12; Fmul 0 0 13; Fmul 1 1 13; Fmul 2 2 13;
   Fmul 3 3 13; Fadd 0 0 14; Fadd 1 1 14; Fadd 2 2 14; Fadd 3 3 14; Fcvtzs 0 0; Fcvtzs 1 1; Fcvtzs 2 2; Fcvtzs 3 3;
   St (SFull 0); St (SFull 1); St (SFull 2); St (SHalf 3)].
(* transform_kernels_arm_64.h 7901 *)
Definition BiasAdd_post15 : list instr :=
  [Ld (SHalf 0); Ld (SLane 0 4 2); Ld (SLane 0 2 6); Ld (SLane 0 1 14); LdBias (SHalf 4); LdBias (SLane 4 4 2);
   LdBias (SLane 4 2 6); LdBias (SLane 4 1 14); Uxtl2 1 0; Uxtl 0 0; Uxtl2 5 4; Uxtl 4 4; Sxtl2 3 1; Sxtl 2 1;
   Sxtl2 7 5; Sxtl 6 5; Sxtl2 1 0; Sxtl 0 0; Sxtl2 5 4; Sxtl 4 4; Scvtf 0 0; Scvtf 1 1; Scvtf 2 2; Scvtf 3 3;
   Scvtf 4 4; Scvtf 5 5; Scvtf 6 6; Scvtf 7 7; Fmul 0 0 9; Fmul 1 1 9; Fmul 2 2 9; Fmul 3 3 9; Fmul 4 4 11;
   Fmul 5 5 11; Fmul 6 6 11; Fmul 7 7 11; Fadd 0 0 8; Fadd 1 1 8; Fadd 2 2 8; Fadd 3 3 8; Fadd 4 4 10; Fadd 5 5 10;
   Fadd 6 6 10; Fadd 7 7 10; Fadd 0 0 4; Fadd 1 1 5; Fadd 2 2 6; Fadd 3 3 7; Fsub 0 0 12; Fsub 1 1 12; Fsub 2 2 12;
   Fsub 3 3 12; Fmul 0 0 13; Fmul 1 1 13; Fmul 2 2 13; Fmul 3 3 13; Fadd 0 0 14; Fadd 1 1 14; Fadd 2 2 14;
   Fadd 3 3 14; Fcvtzs 0 0; Fcvtzs 1 1; Fcvtzs 2 2; Fcvtzs 3 3; St (SFull 0); St (SFull 1); St (SFull 2);
   St (SHalf 3); St (SLane 3 4 2)].
Definition BiasAdd_post (l : Z) : list instr :=
  match l with
  | 1 => BiasAdd_post1
  | 2 => BiasAdd_post2
  | 3 => BiasAdd_post3
  | 4 => BiasAdd_post4
  | 5 => BiasAdd_post5
  | 6 => BiasAdd_post6
  | 7 => BiasAdd_post7
  | 8 => BiasAdd_post8
  | 9 => BiasAdd_post9
  | 10 => BiasAdd_post10
  | 11 => BiasAdd_post11
  | 12 => BiasAdd_post12
  | 13 => BiasAdd_post13
  | 14 => BiasAdd_post14
  | 15 => BiasAdd_post15
  | _ => []
  end.

(* the five kernels *)
Definition RequantizeK : tkernel := mk_tk 4 1 Requantize_pre Requantize_body Requantize_post false.
Definition QuantizeK : tkernel := mk_tk 4 1 Quantize_pre Quantize_body Quantize_post false.
Definition DequantizeK : tkernel := mk_tk 1 4 Dequantize_pre Dequantize_body Dequantize_post false.
Definition MinMaxK : tkernel := mk_tk 1 1 MinMax_pre MinMax_body MinMax_post false.
Definition BiasAddK : tkernel := mk_tk 1 4 BiasAdd_pre BiasAdd_body BiasAdd_post true.
