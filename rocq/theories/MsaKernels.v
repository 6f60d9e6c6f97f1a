(* MsaKernels.v: the inline assembly of internal/kernel_msa.h, one constructor per
   instruction in source order (generated by tools/gen_msa_kernels.py from the
   header). *)
From Verif Require Import Base MsaModel.
Local Open Scope nat_scope.
Local Open Scope Z_scope.

(* kernel_msa.h 44-272; labels: 1 = 34, 2 = 58, 3 = 58, 4 = 104 *)
Definition MSA_Kernel12x8Depth2_asm : list mop :=
  [MSll MStride MStride 2;
   MBranch true MStart 34;
   MAdd MA0 MDst MStride;
   MLdW 0 MDst 0;
   MLdW 4 MDst 16;
   MLdW 8 MDst 32;
   MAdd MA1 MA0 MStride;
   MLdW 1 MA0 0;
   MLdW 5 MA0 16;
   MLdW 9 MA0 32;
   MAdd MA0 MA1 MStride;
   MLdW 2 MA1 0;
   MLdW 6 MA1 16;
   MLdW 10 MA1 32;
   MAdd MA1 MA0 MStride;
   MLdW 3 MA0 0;
   MLdW 7 MA0 16;
   MLdW 11 MA0 32;
   MAdd MA0 MA1 MStride;
   MLdW 12 MA1 0;
   MLdW 16 MA1 16;
   MLdW 20 MA1 32;
   MAdd MA1 MA0 MStride;
   MLdW 13 MA0 0;
   MLdW 17 MA0 16;
   MLdW 21 MA0 32;
   MAdd MA0 MA1 MStride;
   MLdW 14 MA1 0;
   MLdW 18 MA1 16;
   MLdW 22 MA1 32;
   MLdW 15 MA0 0;
   MLdW 19 MA0 16;
   MLdW 23 MA0 32;
   MJump 58;
   MLdi 0 32 0;
   MLdi 4 32 0;
   MLdi 8 32 0;
   MLdi 1 32 0;
   MLdi 5 32 0;
   MLdi 9 32 0;
   MLdi 2 32 0;
   MLdi 6 32 0;
   MLdi 10 32 0;
   MLdi 3 32 0;
   MLdi 7 32 0;
   MLdi 11 32 0;
   MLdi 12 32 0;
   MLdi 16 32 0;
   MLdi 20 32 0;
   MLdi 13 32 0;
   MLdi 17 32 0;
   MLdi 21 32 0;
   MLdi 14 32 0;
   MLdi 18 32 0;
   MLdi 22 32 0;
   MLdi 15 32 0;
   MLdi 19 32 0;
   MLdi 23 32 0;
   MLdB 24 MLhs 0;
   MLdB 25 MLhs 8;
   MLdB 27 MRhs 0;
   MLdi 31 8 0;
   MIlvr 24 31 24;
   MIlvl 26 31 25;
   MIlvr 25 31 25;
   MIlvr 31 31 27;
   MSplati 28 31 0;
   MSplati 29 31 1;
   MSplati 30 31 2;
   MSplati 31 31 3;
   MDpaddU 0 24 28;
   MDpaddU 4 25 28;
   MDpaddU 8 26 28;
   MDpaddU 1 24 29;
   MDpaddU 5 25 29;
   MDpaddU 9 26 29;
   MDpaddU 2 24 30;
   MDpaddU 6 25 30;
   MDpaddU 10 26 30;
   MDpaddU 3 24 31;
   MDpaddU 7 25 31;
   MDpaddU 11 26 31;
   MLdi 31 8 0;
   MIlvl 31 31 27;
   MSplati 28 31 0;
   MSplati 29 31 1;
   MSplati 30 31 2;
   MSplati 31 31 3;
   MDpaddU 12 24 28;
   MDpaddU 16 25 28;
   MDpaddU 20 26 28;
   MDpaddU 13 24 29;
   MDpaddU 17 25 29;
   MDpaddU 21 26 29;
   MDpaddU 14 24 30;
   MDpaddU 18 25 30;
   MDpaddU 22 26 30;
   MDpaddU 15 24 31;
   MDpaddU 19 25 31;
   MDpaddU 23 26 31;
   MAddI MRun (-2);
   MAddI MLhs 24;
   MAddI MRhs 16;
   MBranch false MRun 58;
   MAdd MA0 MDst MStride;
   MStW 0 MDst 0;
   MStW 4 MDst 16;
   MStW 8 MDst 32;
   MAdd MA1 MA0 MStride;
   MStW 1 MA0 0;
   MStW 5 MA0 16;
   MStW 9 MA0 32;
   MAdd MA0 MA1 MStride;
   MStW 2 MA1 0;
   MStW 6 MA1 16;
   MStW 10 MA1 32;
   MAdd MA1 MA0 MStride;
   MStW 3 MA0 0;
   MStW 7 MA0 16;
   MStW 11 MA0 32;
   MAdd MA0 MA1 MStride;
   MStW 12 MA1 0;
   MStW 16 MA1 16;
   MStW 20 MA1 32;
   MAdd MA1 MA0 MStride;
   MStW 13 MA0 0;
   MStW 17 MA0 16;
   MStW 21 MA0 32;
   MAdd MA0 MA1 MStride;
   MStW 14 MA1 0;
   MStW 18 MA1 16;
   MStW 22 MA1 32;
   MStW 15 MA0 0;
   MStW 19 MA0 16;
   MStW 23 MA0 32].

(* kernel_msa.h 281-569; labels: 2 = 27, 1 = 71, 3 = 141, 4 = 153 *)
Definition MSA_GEMM_Int8Operands_LhsNonzero_asm : list mop :=
  [MAddI MRun (-16);
   MLdB 16 MLhs 0;
   MLdi 0 8 0;
   MLdB 20 MRhs 0;
   MLdi 1 8 0;
   MLdB 17 MLhs 16;
   MLdi 2 8 0;
   MLdB 21 MRhs 16;
   MLdi 3 8 0;
   MLdB 18 MLhs 32;
   MLdi 4 8 0;
   MLdB 19 MLhs 48;
   MLdi 5 8 0;
   MLdB 22 MRhs 32;
   MLdi 6 8 0;
   MLdB 23 MRhs 48;
   MLdi 7 8 0;
   MLdi 8 8 0;
   MLdi 9 8 0;
   MLdi 10 8 0;
   MLdi 11 8 0;
   MLdi 12 8 0;
   MLdi 13 8 0;
   MLdi 14 8 0;
   MLdi 15 8 0;
   MLdi 31 16 1;
   MBranch true MRun 71;
   MAddI MLhs 64;
   MAddI MRhs 64;
   MAddI MRun (-16);
   MDotpS 25 16 20;
   MDotpS 26 17 20;
   MDotpS 27 16 21;
   MDotpS 28 17 21;
   MDotpS 29 18 20;
   MDpaddS 0 25 31;
   MDpaddS 1 26 31;
   MDpaddS 4 27 31;
   MDpaddS 5 28 31;
   MDpaddS 2 29 31;
   MDotpS 24 16 22;
   MDotpS 25 19 20;
   MDotpS 26 16 23;
   MDotpS 27 17 22;
   MLdB 20 MRhs 0;
   MDotpS 28 17 23;
   MLdB 16 MLhs 0;
   MDotpS 29 18 21;
   MLdB 17 MLhs 16;
   MDpaddS 8 24 31;
   MDpaddS 3 25 31;
   MDpaddS 12 26 31;
   MDpaddS 9 27 31;
   MDpaddS 13 28 31;
   MDpaddS 6 29 31;
   MDotpS 25 19 21;
   MDotpS 26 18 22;
   MDotpS 27 18 23;
   MLdB 21 MRhs 16;
   MDotpS 28 19 22;
   MLdB 18 MLhs 32;
   MDotpS 29 19 23;
   MLdB 22 MRhs 32;
   MDpaddS 7 25 31;
   MLdB 19 MLhs 48;
   MDpaddS 10 26 31;
   MLdB 23 MRhs 48;
   MDpaddS 14 27 31;
   MDpaddS 11 28 31;
   MDpaddS 15 29 31;
   MBranch false MRun 27;
   MDotpS 25 16 20;
   MDotpS 26 17 20;
   MDotpS 27 16 21;
   MDotpS 28 17 21;
   MDotpS 29 18 20;
   MDpaddS 0 25 31;
   MDpaddS 1 26 31;
   MDpaddS 4 27 31;
   MDpaddS 5 28 31;
   MDpaddS 2 29 31;
   MDotpS 24 16 22;
   MDotpS 25 19 20;
   MDotpS 26 16 23;
   MDotpS 27 17 22;
   MDotpS 28 17 23;
   MDotpS 29 18 21;
   MDpaddS 8 24 31;
   MDpaddS 3 25 31;
   MDpaddS 12 26 31;
   MDpaddS 9 27 31;
   MDpaddS 13 28 31;
   MDpaddS 6 29 31;
   MDotpS 25 19 21;
   MDotpS 26 18 22;
   MDotpS 27 18 23;
   MDotpS 28 19 22;
   MDotpS 29 19 23;
   MDpaddS 7 25 31;
   MDpaddS 10 26 31;
   MDpaddS 14 27 31;
   MDpaddS 11 28 31;
   MDpaddS 15 29 31;
   MHadd 0 0 0;
   MHadd 1 1 1;
   MHadd 2 2 2;
   MHadd 3 3 3;
   MHadd 4 4 4;
   MHadd 5 5 5;
   MHadd 6 6 6;
   MHadd 7 7 7;
   MHadd 8 8 8;
   MHadd 9 9 9;
   MHadd 10 10 10;
   MHadd 11 11 11;
   MHadd 12 12 12;
   MHadd 13 13 13;
   MHadd 14 14 14;
   MHadd 15 15 15;
   MPckev 0 1 0;
   MPckev 2 3 2;
   MPckev 4 5 4;
   MPckev 6 7 6;
   MPckev 8 9 8;
   MPckev 10 11 10;
   MPckev 12 13 12;
   MPckev 14 15 14;
   MHadd 0 0 0;
   MHadd 2 2 2;
   MHadd 4 4 4;
   MHadd 6 6 6;
   MHadd 8 8 8;
   MHadd 10 10 10;
   MHadd 12 12 12;
   MHadd 14 14 14;
   MBranch false MStart 141;
   MPckev 0 2 0;
   MPckev 1 6 4;
   MPckev 2 10 8;
   MPckev 3 14 12;
   MJump 153;
   MLdW 16 MDst 0;
   MPckev 0 2 0;
   MLdW 17 MDst1 0;
   MPckev 1 6 4;
   MLdW 18 MDst2 0;
   MPckev 2 10 8;
   MLdW 19 MDst3 0;
   MPckev 3 14 12;
   MAddv 0 0 16;
   MAddv 1 1 17;
   MAddv 2 2 18;
   MAddv 3 3 19;
   MStW 0 MDst 0;
   MStW 1 MDst1 0;
   MStW 2 MDst2 0;
   MStW 3 MDst3 0].

