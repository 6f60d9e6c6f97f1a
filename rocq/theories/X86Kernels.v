(* X86Kernels.v: the inline assembly of internal/kernel_sse.h and kernel_avx.h, one
   constructor per instruction in source order (generated by
   tools/gen_x86_kernels.py from the headers).  Two-operand instructions are
   written with their destination repeated. *)
From Verif Require Import Base X86Model.
Local Open Scope nat_scope.
Local Open Scope Z_scope.

(* kernel_sse.h 73-193; labels: outerLoop2 = 7, outerLoop1 = 44, finish = 62, storeDst = 72 *)
Definition SSE4_32_Kernel4x4Depth2_asm : list xop :=
  [XPxor 4 4 4;
   XPxor 5 5 5;
   XPxor 6 6 6;
   XPxor 7 7 7;
   XMov Run_depth_cells Tmp0;
   XSub 2 Tmp0;
   XJ CondS 44;
   XPmovzxbw Rhs_ptr 0 1;
   XPmovzxbw Lhs_ptr 0 0;
   XPshufd 0 1 2;
   XPshufd 85 1 3;
   XPmaddwd 0 2 2;
   XPmaddwd 0 3 3;
   XPaddd 2 4 4;
   XPaddd 3 5 5;
   XPrefetch;
   XPshufd 170 1 2;
   XPmaddwd 0 2 2;
   XPshufd 255 1 3;
   XPmaddwd 0 3 3;
   XPrefetch;
   XPmovzxbw Rhs_ptr 8 1;
   XPaddd 2 6 6;
   XPaddd 3 7 7;
   XPmovzxbw Lhs_ptr 8 0;
   XPshufd 0 1 2;
   XPshufd 85 1 3;
   XPmaddwd 0 2 2;
   XPmaddwd 0 3 3;
   XPaddd 2 4 4;
   XPaddd 3 5 5;
   XPshufd 170 1 2;
   XPshufd 255 1 3;
   XAdd 16 Lhs_ptr;
   XAdd 16 Rhs_ptr;
   XPmaddwd 0 3 3;
   XPaddd 3 7 7;
   XPmaddwd 0 2 2;
   XPaddd 2 6 6;
   XSub 2 Run_depth_cells;
   XJ CondA 7;
   XMov Run_depth_cells Tmp0;
   XDec Tmp0;
   XJ CondS 62;
   XPmovzxbw Rhs_ptr 0 1;
   XPmovzxbw Lhs_ptr 0 0;
   XPshufd 0 1 2;
   XPmaddwd 0 2 2;
   XPaddd 2 4 4;
   XPshufd 85 1 3;
   XPmaddwd 0 3 3;
   XPaddd 3 5 5;
   XPshufd 170 1 2;
   XPmaddwd 0 2 2;
   XPaddd 2 6 6;
   XPshufd 255 1 3;
   XPmaddwd 0 3 3;
   XPaddd 3 7 7;
   XAdd 8 Lhs_ptr;
   XAdd 8 Rhs_ptr;
   XDec Run_depth_cells;
   XJ CondNZ 44;
   XMov Dst_col_stride Tmp0;
   XShl 2 Tmp0;
   XMov Start_depth Tmp1;
   XTest Tmp1 Tmp1;
   XJ CondZ 72;
   XLea Tmp0 Tmp0 2 Tmp1;
   XPadddM (Addr 0 Dst_ptr None) 4 4;
   XPadddM (Addr 0 Dst_ptr (Some (Tmp0, 1))) 5 5;
   XPadddM (Addr 0 Dst_ptr (Some (Tmp0, 2))) 6 6;
   XPadddM (Addr 0 Dst_ptr (Some (Tmp1, 1))) 7 7;
   XLea Tmp0 Tmp0 2 Tmp1;
   XStore 4 (Addr 0 Dst_ptr None);
   XStore 5 (Addr 0 Dst_ptr (Some (Tmp0, 1)));
   XStore 6 (Addr 0 Dst_ptr (Some (Tmp0, 2)));
   XStore 7 (Addr 0 Dst_ptr (Some (Tmp1, 1)))].

(* kernel_sse.h 261-501; labels: outerLoop2 = 18, outerLoop1 = 107, finish = 151, storeDst = 165 *)
Definition SSE4_64_Kernel12x4Depth2_asm : list xop :=
  [XMov Dst_col_stride Tmp0;
   XShl 2 Tmp0;
   XLea Tmp0 Tmp0 2 Tmp1;
   XPxor 4 4 4;
   XPxor 5 5 5;
   XPxor 6 6 6;
   XPxor 7 7 7;
   XPxor 8 8 8;
   XPxor 9 9 9;
   XPxor 10 10 10;
   XPxor 11 11 11;
   XPxor 12 12 12;
   XPxor 13 13 13;
   XPxor 14 14 14;
   XPxor 15 15 15;
   XMov Run_depth_cells Tmp2;
   XSub 2 Tmp2;
   XJ CondS 107;
   XPmovzxbw Rhs_ptr 0 1;
   XPmovzxbw Lhs_ptr 0 0;
   XPshufd 0 1 2;
   XPshufd 85 1 3;
   XPmaddwd 0 2 2;
   XPmaddwd 0 3 3;
   XPaddd 2 4 4;
   XPaddd 3 5 5;
   XPrefetch;
   XPshufd 170 1 2;
   XPmaddwd 0 2 2;
   XPshufd 255 1 3;
   XPmaddwd 0 3 3;
   XPmovzxbw Lhs_ptr 8 0;
   XPaddd 2 6 6;
   XPaddd 3 7 7;
   XPshufd 0 1 2;
   XPshufd 85 1 3;
   XPmaddwd 0 2 2;
   XPmaddwd 0 3 3;
   XPaddd 2 8 8;
   XPaddd 3 9 9;
   XPrefetch;
   XPshufd 170 1 2;
   XPshufd 255 1 3;
   XPmaddwd 0 2 2;
   XPmaddwd 0 3 3;
   XPaddd 2 10 10;
   XPaddd 3 11 11;
   XPmovzxbw Lhs_ptr 16 0;
   XPshufd 0 1 2;
   XPshufd 85 1 3;
   XPmaddwd 0 2 2;
   XPmaddwd 0 3 3;
   XPaddd 2 12 12;
   XPaddd 3 13 13;
   XPshufd 170 1 2;
   XPshufd 255 1 3;
   XPmaddwd 0 2 2;
   XPmaddwd 0 3 3;
   XPaddd 2 14 14;
   XPaddd 3 15 15;
   XPmovzxbw Rhs_ptr 8 1;
   XPmovzxbw Lhs_ptr 24 0;
   XPshufd 0 1 2;
   XPshufd 85 1 3;
   XPmaddwd 0 2 2;
   XPmaddwd 0 3 3;
   XPaddd 2 4 4;
   XPaddd 3 5 5;
   XPshufd 170 1 2;
   XPshufd 255 1 3;
   XPmaddwd 0 2 2;
   XPmaddwd 0 3 3;
   XPaddd 2 6 6;
   XPaddd 3 7 7;
   XPmovzxbw Lhs_ptr 32 0;
   XPshufd 0 1 2;
   XPshufd 85 1 3;
   XPmaddwd 0 2 2;
   XPmaddwd 0 3 3;
   XPaddd 2 8 8;
   XPaddd 3 9 9;
   XPshufd 170 1 2;
   XPshufd 255 1 3;
   XPmaddwd 0 2 2;
   XPmaddwd 0 3 3;
   XPaddd 2 10 10;
   XPaddd 3 11 11;
   XPmovzxbw Lhs_ptr 40 0;
   XAdd 48 Lhs_ptr;
   XAdd 16 Rhs_ptr;
   XPshufd 0 1 2;
   XPshufd 85 1 3;
   XPmaddwd 0 2 2;
   XPmaddwd 0 3 3;
   XPaddd 2 12 12;
   XPaddd 3 13 13;
   XPshufd 170 1 2;
   XPshufd 255 1 3;
   XPmaddwd 0 2 2;
   XPmaddwd 0 3 3;
   XPaddd 2 14 14;
   XPaddd 3 15 15;
   XSub 2 Run_depth_cells;
   XJ CondA 18;
   XMov Run_depth_cells Tmp2;
   XDec Tmp2;
   XJ CondS 151;
   XPmovzxbw Rhs_ptr 0 1;
   XPmovzxbw Lhs_ptr 0 0;
   XPshufd 0 1 2;
   XPshufd 85 1 3;
   XPmaddwd 0 2 2;
   XPmaddwd 0 3 3;
   XPaddd 2 4 4;
   XPaddd 3 5 5;
   XPshufd 170 1 2;
   XPshufd 255 1 3;
   XPmaddwd 0 2 2;
   XPmaddwd 0 3 3;
   XPaddd 2 6 6;
   XPaddd 3 7 7;
   XPmovzxbw Lhs_ptr 8 0;
   XPshufd 0 1 2;
   XPshufd 85 1 3;
   XPmaddwd 0 2 2;
   XPmaddwd 0 3 3;
   XPaddd 2 8 8;
   XPaddd 3 9 9;
   XPshufd 170 1 2;
   XPshufd 255 1 3;
   XPmaddwd 0 2 2;
   XPmaddwd 0 3 3;
   XPaddd 2 10 10;
   XPaddd 3 11 11;
   XPmovzxbw Lhs_ptr 16 0;
   XAdd 24 Lhs_ptr;
   XAdd 8 Rhs_ptr;
   XPshufd 0 1 2;
   XPshufd 85 1 3;
   XPmaddwd 0 2 2;
   XPmaddwd 0 3 3;
   XPaddd 2 12 12;
   XPaddd 3 13 13;
   XPshufd 170 1 2;
   XPshufd 255 1 3;
   XPmaddwd 0 2 2;
   XPmaddwd 0 3 3;
   XPaddd 2 14 14;
   XPaddd 3 15 15;
   XDec Run_depth_cells;
   XJ CondNZ 107;
   XTest Start_depth Start_depth;
   XJ CondZ 165;
   XPadddM (Addr 0 Dst_ptr None) 4 4;
   XPadddM (Addr 16 Dst_ptr None) 8 8;
   XPadddM (Addr 32 Dst_ptr None) 12 12;
   XPadddM (Addr 0 Dst_ptr (Some (Tmp0, 1))) 5 5;
   XPadddM (Addr 16 Dst_ptr (Some (Tmp0, 1))) 9 9;
   XPadddM (Addr 32 Dst_ptr (Some (Tmp0, 1))) 13 13;
   XPadddM (Addr 0 Dst_ptr (Some (Tmp0, 2))) 6 6;
   XPadddM (Addr 16 Dst_ptr (Some (Tmp0, 2))) 10 10;
   XPadddM (Addr 32 Dst_ptr (Some (Tmp0, 2))) 14 14;
   XPadddM (Addr 0 Dst_ptr (Some (Tmp1, 1))) 7 7;
   XPadddM (Addr 16 Dst_ptr (Some (Tmp1, 1))) 11 11;
   XPadddM (Addr 32 Dst_ptr (Some (Tmp1, 1))) 15 15;
   XStore 4 (Addr 0 Dst_ptr None);
   XStore 8 (Addr 16 Dst_ptr None);
   XStore 12 (Addr 32 Dst_ptr None);
   XStore 5 (Addr 0 Dst_ptr (Some (Tmp0, 1)));
   XStore 9 (Addr 16 Dst_ptr (Some (Tmp0, 1)));
   XStore 13 (Addr 32 Dst_ptr (Some (Tmp0, 1)));
   XStore 6 (Addr 0 Dst_ptr (Some (Tmp0, 2)));
   XStore 10 (Addr 16 Dst_ptr (Some (Tmp0, 2)));
   XStore 14 (Addr 32 Dst_ptr (Some (Tmp0, 2)));
   XStore 7 (Addr 0 Dst_ptr (Some (Tmp1, 1)));
   XStore 11 (Addr 16 Dst_ptr (Some (Tmp1, 1)));
   XStore 15 (Addr 32 Dst_ptr (Some (Tmp1, 1)))].

(* kernel_avx.h 82-344; labels: outerLoop2 = 18, outerLoop1 = 115, finish = 160, storeDst = 174 *)
Definition AVX2_64_Kernel24x8Depth2_asm : list xop :=
  [XMov Dst_col_stride Tmp0;
   XShl 2 Tmp0;
   XLea Tmp0 Tmp0 2 Tmp1;
   XPxor 4 4 4;
   XPxor 5 5 5;
   XPxor 6 6 6;
   XPxor 7 7 7;
   XPxor 8 8 8;
   XPxor 9 9 9;
   XPxor 10 10 10;
   XPxor 11 11 11;
   XPxor 12 12 12;
   XPxor 13 13 13;
   XPxor 14 14 14;
   XPxor 15 15 15;
   XMov Run_depth_cells Tmp2;
   XSub 2 Tmp2;
   XJ CondS 115;
   XPmovzxbw Rhs_ptr 0 1;
   XPermq 68 1 1;
   XPmovzxbw Lhs_ptr 0 0;
   XPshufd 0 1 2;
   XPshufd 85 1 3;
   XPmaddwd 0 2 2;
   XPmaddwd 0 3 3;
   XPaddd 2 4 4;
   XPaddd 3 5 5;
   XPshufd 170 1 2;
   XPmaddwd 0 2 2;
   XPshufd 255 1 3;
   XPmaddwd 0 3 3;
   XPaddd 2 6 6;
   XPaddd 3 7 7;
   XPmovzxbw Rhs_ptr 0 1;
   XPermq 68 1 1;
   XPmovzxbw Lhs_ptr 16 0;
   XPshufd 0 1 2;
   XPshufd 85 1 3;
   XPmaddwd 0 2 2;
   XPmaddwd 0 3 3;
   XPaddd 2 8 8;
   XPaddd 3 9 9;
   XPshufd 170 1 2;
   XPshufd 255 1 3;
   XPmaddwd 0 2 2;
   XPmaddwd 0 3 3;
   XPaddd 2 10 10;
   XPaddd 3 11 11;
   XPmovzxbw Rhs_ptr 0 1;
   XPermq 68 1 1;
   XPmovzxbw Lhs_ptr 32 0;
   XPshufd 0 1 2;
   XPshufd 85 1 3;
   XPmaddwd 0 2 2;
   XPmaddwd 0 3 3;
   XPaddd 2 12 12;
   XPaddd 3 13 13;
   XPshufd 170 1 2;
   XPshufd 255 1 3;
   XPmaddwd 0 2 2;
   XPmaddwd 0 3 3;
   XPaddd 2 14 14;
   XPaddd 3 15 15;
   XPmovzxbw Rhs_ptr 8 1;
   XPermq 68 1 1;
   XPmovzxbw Lhs_ptr 48 0;
   XPshufd 0 1 2;
   XPshufd 85 1 3;
   XPmaddwd 0 2 2;
   XPmaddwd 0 3 3;
   XPaddd 2 4 4;
   XPaddd 3 5 5;
   XPshufd 170 1 2;
   XPshufd 255 1 3;
   XPmaddwd 0 2 2;
   XPmaddwd 0 3 3;
   XPaddd 2 6 6;
   XPaddd 3 7 7;
   XPmovzxbw Rhs_ptr 8 1;
   XPermq 68 1 1;
   XPmovzxbw Lhs_ptr 64 0;
   XPshufd 0 1 2;
   XPshufd 85 1 3;
   XPmaddwd 0 2 2;
   XPmaddwd 0 3 3;
   XPaddd 2 8 8;
   XPaddd 3 9 9;
   XPshufd 170 1 2;
   XPshufd 255 1 3;
   XPmaddwd 0 2 2;
   XPmaddwd 0 3 3;
   XPaddd 2 10 10;
   XPaddd 3 11 11;
   XPmovzxbw Rhs_ptr 8 1;
   XPermq 68 1 1;
   XPmovzxbw Lhs_ptr 80 0;
   XPshufd 0 1 2;
   XPshufd 85 1 3;
   XPmaddwd 0 2 2;
   XPmaddwd 0 3 3;
   XPaddd 2 12 12;
   XPaddd 3 13 13;
   XPshufd 170 1 2;
   XPshufd 255 1 3;
   XPmaddwd 0 2 2;
   XPmaddwd 0 3 3;
   XPaddd 2 14 14;
   XPaddd 3 15 15;
   XAdd 96 Lhs_ptr;
   XAdd 16 Rhs_ptr;
   XSub 2 Run_depth_cells;
   XJ CondA 18;
   XMov Run_depth_cells Tmp2;
   XDec Tmp2;
   XJ CondS 160;
   XPmovzxbw Rhs_ptr 0 1;
   XPermq 68 1 1;
   XPmovzxbw Lhs_ptr 0 0;
   XPshufd 0 1 2;
   XPshufd 85 1 3;
   XPmaddwd 0 2 2;
   XPmaddwd 0 3 3;
   XPaddd 2 4 4;
   XPaddd 3 5 5;
   XPshufd 170 1 2;
   XPshufd 255 1 3;
   XPmaddwd 0 2 2;
   XPmaddwd 0 3 3;
   XPaddd 2 6 6;
   XPaddd 3 7 7;
   XPmovzxbw Lhs_ptr 16 0;
   XPshufd 0 1 2;
   XPshufd 85 1 3;
   XPmaddwd 0 2 2;
   XPmaddwd 0 3 3;
   XPaddd 2 8 8;
   XPaddd 3 9 9;
   XPshufd 170 1 2;
   XPshufd 255 1 3;
   XPmaddwd 0 2 2;
   XPmaddwd 0 3 3;
   XPaddd 2 10 10;
   XPaddd 3 11 11;
   XPmovzxbw Lhs_ptr 32 0;
   XPshufd 0 1 2;
   XPshufd 85 1 3;
   XPmaddwd 0 2 2;
   XPmaddwd 0 3 3;
   XPaddd 2 12 12;
   XPaddd 3 13 13;
   XPshufd 170 1 2;
   XPshufd 255 1 3;
   XPmaddwd 0 2 2;
   XPmaddwd 0 3 3;
   XPaddd 2 14 14;
   XPaddd 3 15 15;
   XAdd 48 Lhs_ptr;
   XAdd 8 Rhs_ptr;
   XDec Run_depth_cells;
   XJ CondNZ 115;
   XTest Start_depth Start_depth;
   XJ CondZ 174;
   XPadddM (Addr 0 Dst_ptr None) 4 4;
   XPadddM (Addr 32 Dst_ptr None) 8 8;
   XPadddM (Addr 64 Dst_ptr None) 12 12;
   XPadddM (Addr 0 Dst_ptr (Some (Tmp0, 1))) 5 5;
   XPadddM (Addr 32 Dst_ptr (Some (Tmp0, 1))) 9 9;
   XPadddM (Addr 64 Dst_ptr (Some (Tmp0, 1))) 13 13;
   XPadddM (Addr 0 Dst_ptr (Some (Tmp0, 2))) 6 6;
   XPadddM (Addr 32 Dst_ptr (Some (Tmp0, 2))) 10 10;
   XPadddM (Addr 64 Dst_ptr (Some (Tmp0, 2))) 14 14;
   XPadddM (Addr 0 Dst_ptr (Some (Tmp1, 1))) 7 7;
   XPadddM (Addr 32 Dst_ptr (Some (Tmp1, 1))) 11 11;
   XPadddM (Addr 64 Dst_ptr (Some (Tmp1, 1))) 15 15;
   XStore 4 (Addr 0 Dst_ptr None);
   XStore 8 (Addr 32 Dst_ptr None);
   XStore 12 (Addr 64 Dst_ptr None);
   XStore 5 (Addr 0 Dst_ptr (Some (Tmp0, 1)));
   XStore 9 (Addr 32 Dst_ptr (Some (Tmp0, 1)));
   XStore 13 (Addr 64 Dst_ptr (Some (Tmp0, 1)));
   XStore 6 (Addr 0 Dst_ptr (Some (Tmp0, 2)));
   XStore 10 (Addr 32 Dst_ptr (Some (Tmp0, 2)));
   XStore 14 (Addr 64 Dst_ptr (Some (Tmp0, 2)));
   XStore 7 (Addr 0 Dst_ptr (Some (Tmp1, 1)));
   XStore 11 (Addr 32 Dst_ptr (Some (Tmp1, 1)));
   XStore 15 (Addr 64 Dst_ptr (Some (Tmp1, 1)))].

