(* ArmKernels.v: the inline assembly of internal/kernel_neon.h, one constructor per
   instruction in source order, loads and stores of several registers one per
   register (generated by tools/gen_arm_kernels.py from the header). *)
From Verif Require Import Base ArmModel.
Local Open Scope nat_scope.
Local Open Scope Z_scope.

(* kernel_neon.h 34-292; labels: 1 = 29, 2 = 42, 3 = 43, 4 = 79 *)
Definition NEON_32_Kernel12x4Depth2_asm : list aop :=
  [NLd8 false 0 0 ARhs 0 8;
   NLd8 false 1 0 ALhs 0 8;
   NLd8 false 2 0 ALhs 0 8;
   NLd8 false 3 0 ALhs 0 8;
   ACmp AStart 0;
   ALsl AStride AStride 2;
   ABr CEQ 29;
   AMov AR1 ADst;
   ASubs ARun ARun 2;
   AMov AR0 AR1;
   NLdW SDst 4 AR0 (OImm 16);
   AAdd AR1 AR1 (OReg AStride);
   NLdW SDst 8 AR0 (OImm 16);
   NLdW SDst 12 AR0 (OImm 0);
   AMov AR0 AR1;
   NLdW SDst 5 AR0 (OImm 16);
   AAdd AR1 AR1 (OReg AStride);
   NLdW SDst 9 AR0 (OImm 16);
   NLdW SDst 13 AR0 (OImm 0);
   AMov AR0 AR1;
   NLdW SDst 6 AR0 (OImm 16);
   AAdd AR1 AR1 (OReg AStride);
   NLdW SDst 10 AR0 (OImm 16);
   NLdW SDst 14 AR0 (OImm 0);
   AMov AR0 AR1;
   NLdW SDst 7 AR0 (OImm 16);
   NLdW SDst 11 AR0 (OImm 16);
   NLdW SDst 15 AR0 (OImm 0);
   ABr CAL 42;
   NZero 4;
   ASubs ARun ARun 2;
   NMovQ 8 4;
   NMovQ 12 4;
   NMovQ 5 4;
   NMovQ 9 4;
   NMovQ 13 4;
   NMovQ 6 4;
   NMovQ 10 4;
   NMovQ 14 4;
   NMovQ 7 4;
   NMovQ 11 4;
   NMovQ 15 4;
   ABr CEQ 79;
   NMovl 0 0 0;
   NMovl 1 1 0;
   NMovl 2 2 0;
   NMovl 3 3 0;
   NMlal16 4 1 0 0 0;
   NMlal16 5 1 0 0 1;
   NMlal16 6 1 0 0 2;
   NMlal16 7 1 0 0 3;
   NLd8 false 1 0 ALhs 0 0;
   NMlal16 8 2 0 0 0;
   NMlal16 9 2 0 0 1;
   NMlal16 10 2 0 0 2;
   NMlal16 11 2 0 0 3;
   NLd8 false 2 0 ALhs 8 0;
   NMlal16 12 3 0 0 0;
   NMlal16 13 3 0 0 1;
   NMlal16 14 3 0 0 2;
   NMlal16 15 3 0 0 3;
   NLd8 false 3 0 ALhs 16 0;
   NLd8 false 0 0 ARhs 0 0;
   NMlal16 4 1 1 0 4;
   NMlal16 5 1 1 0 5;
   AAdd ALhs ALhs (OImm 24);
   NMlal16 6 1 1 0 6;
   NMlal16 7 1 1 0 7;
   AAdd ARhs ARhs (OImm 8);
   NMlal16 8 2 1 0 4;
   NMlal16 9 2 1 0 5;
   ASubs ARun ARun 2;
   NMlal16 10 2 1 0 6;
   NMlal16 11 2 1 0 7;
   NMlal16 12 3 1 0 4;
   NMlal16 13 3 1 0 5;
   NMlal16 14 3 1 0 6;
   NMlal16 15 3 1 0 7;
   ABr CNE 43;
   NMovl 0 0 0;
   NMovl 1 1 0;
   NMovl 2 2 0;
   NMovl 3 3 0;
   NMlal16 4 1 0 0 0;
   NMlal16 5 1 0 0 1;
   NMlal16 6 1 0 0 2;
   NMlal16 7 1 0 0 3;
   NMlal16 8 2 0 0 0;
   NMlal16 9 2 0 0 1;
   NMlal16 10 2 0 0 2;
   NMlal16 11 2 0 0 3;
   NMlal16 12 3 0 0 0;
   NMlal16 13 3 0 0 1;
   NMlal16 14 3 0 0 2;
   NMlal16 15 3 0 0 3;
   NMlal16 4 1 1 0 4;
   NMlal16 5 1 1 0 5;
   NMlal16 6 1 1 0 6;
   NMlal16 7 1 1 0 7;
   NMlal16 8 2 1 0 4;
   NMlal16 9 2 1 0 5;
   NMlal16 10 2 1 0 6;
   NMlal16 11 2 1 0 7;
   NMlal16 12 3 1 0 4;
   NMlal16 13 3 1 0 5;
   NMlal16 14 3 1 0 6;
   NMlal16 15 3 1 0 7;
   AMov AR1 ADst;
   AMov AR0 AR1;
   NStW SDst 4 AR0 (OImm 16);
   AAdd AR1 AR1 (OReg AStride);
   NStW SDst 8 AR0 (OImm 16);
   NStW SDst 12 AR0 (OImm 0);
   AMov AR0 AR1;
   NStW SDst 5 AR0 (OImm 16);
   AAdd AR1 AR1 (OReg AStride);
   NStW SDst 9 AR0 (OImm 16);
   NStW SDst 13 AR0 (OImm 0);
   AMov AR0 AR1;
   NStW SDst 6 AR0 (OImm 16);
   AAdd AR1 AR1 (OReg AStride);
   NStW SDst 10 AR0 (OImm 16);
   NStW SDst 14 AR0 (OImm 0);
   AMov AR0 AR1;
   NStW SDst 7 AR0 (OImm 16);
   NStW SDst 11 AR0 (OImm 16);
   NStW SDst 15 AR0 (OImm 0)].

(* kernel_neon.h 294-667; labels: 2 = 20, 1 = 63, 3 = 84, 4 = 164, 5 = 244, 6 = 324, 7 = 384 *)
Definition NEON_32_Kernel12x4Depth2Assuming12BitProducts_asm : list aop :=
  [AMovI AR0 4;
   AMul AStride AR0;
   ACmp AStart 0;
   ABr CNE 20;
   AMov AR0 AGlob;
   NZero 8;
   NMovQ 9 8;
   NStW SLoc 8 AR0 (OImm 16);
   NStW SLoc 9 AR0 (OImm 16);
   NStW SLoc 8 AR0 (OImm 16);
   NStW SLoc 9 AR0 (OImm 16);
   NStW SLoc 8 AR0 (OImm 16);
   NStW SLoc 9 AR0 (OImm 16);
   NStW SLoc 8 AR0 (OImm 16);
   NStW SLoc 9 AR0 (OImm 16);
   NStW SLoc 8 AR0 (OImm 16);
   NStW SLoc 9 AR0 (OImm 16);
   NStW SLoc 8 AR0 (OImm 16);
   NStW SLoc 9 AR0 (OImm 16);
   ABr CAL 63;
   AMov AR1 ADst;
   AMov AR0 AStride;
   ASub AR0 AR0 32;
   NLdW SDst 0 AR1 (OImm 16);
   NLdW SDst 4 AR1 (OImm 16);
   NLdW SDst 8 AR1 (OReg AR0);
   NLdW SDst 1 AR1 (OImm 16);
   NLdW SDst 5 AR1 (OImm 16);
   NLdW SDst 9 AR1 (OReg AR0);
   NLdW SDst 2 AR1 (OImm 16);
   NLdW SDst 6 AR1 (OImm 16);
   NLdW SDst 10 AR1 (OReg AR0);
   NLdW SDst 3 AR1 (OImm 16);
   NLdW SDst 7 AR1 (OImm 16);
   NLdW SDst 11 AR1 (OReg AR0);
   NTrn 0 1;
   NTrn 2 3;
   NSwp 0 1 2 0;
   NSwp 1 1 3 0;
   NTrn 4 5;
   NTrn 6 7;
   NSwp 4 1 6 0;
   NSwp 5 1 7 0;
   NTrn 8 9;
   NTrn 10 11;
   NSwp 8 1 10 0;
   NSwp 9 1 11 0;
   NRot32 1 1;
   NRot32 2 2;
   NRot32 3 3;
   NRot32 5 1;
   NRot32 6 2;
   NRot32 7 3;
   NRot32 9 1;
   NRot32 10 2;
   NRot32 11 3;
   AMov AR0 AGlob;
   NSt4 0 0 1 2 3 AR0 32;
   NSt4 1 0 1 2 3 AR0 32;
   NSt4 0 4 5 6 7 AR0 32;
   NSt4 1 4 5 6 7 AR0 32;
   NSt4 0 8 9 10 11 AR0 32;
   NSt4 1 8 9 10 11 AR0 32;
   NZero 4;
   NMovQ 5 4;
   NMovQ 6 4;
   NMovQ 7 4;
   NMovQ 8 4;
   NMovQ 9 4;
   NMovQ 10 4;
   NMovQ 11 4;
   NMovQ 12 4;
   NMovQ 13 4;
   NMovQ 14 4;
   NMovQ 15 4;
   ACmp ARun 32;
   ABr CGE 84;
   ACmp ARun 24;
   ABr CGE 164;
   ACmp ARun 16;
   ABr CGE 244;
   ACmp ARun 8;
   ABr CGE 324;
   ABr CAL 384;
   NLd8 false 0 1 ALhs 0 8;
   NLd8 false 1 0 ALhs 0 8;
   NLd8 false 1 1 ALhs 0 8;
   NLd8 false 0 0 ARhs 0 8;
   NMlalU8 4 0 1 0 0;
   NMlalU8 8 1 0 0 0;
   NMlalU8 12 1 1 0 0;
   NRot8 0 0 2;
   NMlalU8 5 0 1 0 0;
   NMlalU8 9 1 0 0 0;
   NMlalU8 13 1 1 0 0;
   NRot8 0 0 2;
   NMlalU8 6 0 1 0 0;
   NMlalU8 10 1 0 0 0;
   NMlalU8 14 1 1 0 0;
   NRot8 0 0 2;
   NMlalU8 7 0 1 0 0;
   NMlalU8 11 1 0 0 0;
   NMlalU8 15 1 1 0 0;
   ASub ARun ARun 2;
   NLd8 false 0 1 ALhs 0 8;
   NLd8 false 1 0 ALhs 0 8;
   NLd8 false 1 1 ALhs 0 8;
   NLd8 false 0 0 ARhs 0 8;
   NMlalU8 4 0 1 0 0;
   NMlalU8 8 1 0 0 0;
   NMlalU8 12 1 1 0 0;
   NRot8 0 0 2;
   NMlalU8 5 0 1 0 0;
   NMlalU8 9 1 0 0 0;
   NMlalU8 13 1 1 0 0;
   NRot8 0 0 2;
   NMlalU8 6 0 1 0 0;
   NMlalU8 10 1 0 0 0;
   NMlalU8 14 1 1 0 0;
   NRot8 0 0 2;
   NMlalU8 7 0 1 0 0;
   NMlalU8 11 1 0 0 0;
   NMlalU8 15 1 1 0 0;
   ASub ARun ARun 2;
   NLd8 false 0 1 ALhs 0 8;
   NLd8 false 1 0 ALhs 0 8;
   NLd8 false 1 1 ALhs 0 8;
   NLd8 false 0 0 ARhs 0 8;
   NMlalU8 4 0 1 0 0;
   NMlalU8 8 1 0 0 0;
   NMlalU8 12 1 1 0 0;
   NRot8 0 0 2;
   NMlalU8 5 0 1 0 0;
   NMlalU8 9 1 0 0 0;
   NMlalU8 13 1 1 0 0;
   NRot8 0 0 2;
   NMlalU8 6 0 1 0 0;
   NMlalU8 10 1 0 0 0;
   NMlalU8 14 1 1 0 0;
   NRot8 0 0 2;
   NMlalU8 7 0 1 0 0;
   NMlalU8 11 1 0 0 0;
   NMlalU8 15 1 1 0 0;
   ASub ARun ARun 2;
   NLd8 false 0 1 ALhs 0 8;
   NLd8 false 1 0 ALhs 0 8;
   NLd8 false 1 1 ALhs 0 8;
   NLd8 false 0 0 ARhs 0 8;
   NMlalU8 4 0 1 0 0;
   NMlalU8 8 1 0 0 0;
   NMlalU8 12 1 1 0 0;
   NRot8 0 0 2;
   NMlalU8 5 0 1 0 0;
   NMlalU8 9 1 0 0 0;
   NMlalU8 13 1 1 0 0;
   NRot8 0 0 2;
   NMlalU8 6 0 1 0 0;
   NMlalU8 10 1 0 0 0;
   NMlalU8 14 1 1 0 0;
   NRot8 0 0 2;
   NMlalU8 7 0 1 0 0;
   NMlalU8 11 1 0 0 0;
   NMlalU8 15 1 1 0 0;
   ASub ARun ARun 2;
   NLd8 false 0 1 ALhs 0 8;
   NLd8 false 1 0 ALhs 0 8;
   NLd8 false 1 1 ALhs 0 8;
   NLd8 false 0 0 ARhs 0 8;
   NMlalU8 4 0 1 0 0;
   NMlalU8 8 1 0 0 0;
   NMlalU8 12 1 1 0 0;
   NRot8 0 0 2;
   NMlalU8 5 0 1 0 0;
   NMlalU8 9 1 0 0 0;
   NMlalU8 13 1 1 0 0;
   NRot8 0 0 2;
   NMlalU8 6 0 1 0 0;
   NMlalU8 10 1 0 0 0;
   NMlalU8 14 1 1 0 0;
   NRot8 0 0 2;
   NMlalU8 7 0 1 0 0;
   NMlalU8 11 1 0 0 0;
   NMlalU8 15 1 1 0 0;
   ASub ARun ARun 2;
   NLd8 false 0 1 ALhs 0 8;
   NLd8 false 1 0 ALhs 0 8;
   NLd8 false 1 1 ALhs 0 8;
   NLd8 false 0 0 ARhs 0 8;
   NMlalU8 4 0 1 0 0;
   NMlalU8 8 1 0 0 0;
   NMlalU8 12 1 1 0 0;
   NRot8 0 0 2;
   NMlalU8 5 0 1 0 0;
   NMlalU8 9 1 0 0 0;
   NMlalU8 13 1 1 0 0;
   NRot8 0 0 2;
   NMlalU8 6 0 1 0 0;
   NMlalU8 10 1 0 0 0;
   NMlalU8 14 1 1 0 0;
   NRot8 0 0 2;
   NMlalU8 7 0 1 0 0;
   NMlalU8 11 1 0 0 0;
   NMlalU8 15 1 1 0 0;
   ASub ARun ARun 2;
   NLd8 false 0 1 ALhs 0 8;
   NLd8 false 1 0 ALhs 0 8;
   NLd8 false 1 1 ALhs 0 8;
   NLd8 false 0 0 ARhs 0 8;
   NMlalU8 4 0 1 0 0;
   NMlalU8 8 1 0 0 0;
   NMlalU8 12 1 1 0 0;
   NRot8 0 0 2;
   NMlalU8 5 0 1 0 0;
   NMlalU8 9 1 0 0 0;
   NMlalU8 13 1 1 0 0;
   NRot8 0 0 2;
   NMlalU8 6 0 1 0 0;
   NMlalU8 10 1 0 0 0;
   NMlalU8 14 1 1 0 0;
   NRot8 0 0 2;
   NMlalU8 7 0 1 0 0;
   NMlalU8 11 1 0 0 0;
   NMlalU8 15 1 1 0 0;
   ASub ARun ARun 2;
   NLd8 false 0 1 ALhs 0 8;
   NLd8 false 1 0 ALhs 0 8;
   NLd8 false 1 1 ALhs 0 8;
   NLd8 false 0 0 ARhs 0 8;
   NMlalU8 4 0 1 0 0;
   NMlalU8 8 1 0 0 0;
   NMlalU8 12 1 1 0 0;
   NRot8 0 0 2;
   NMlalU8 5 0 1 0 0;
   NMlalU8 9 1 0 0 0;
   NMlalU8 13 1 1 0 0;
   NRot8 0 0 2;
   NMlalU8 6 0 1 0 0;
   NMlalU8 10 1 0 0 0;
   NMlalU8 14 1 1 0 0;
   NRot8 0 0 2;
   NMlalU8 7 0 1 0 0;
   NMlalU8 11 1 0 0 0;
   NMlalU8 15 1 1 0 0;
   ASub ARun ARun 2;
   NLd8 false 0 1 ALhs 0 8;
   NLd8 false 1 0 ALhs 0 8;
   NLd8 false 1 1 ALhs 0 8;
   NLd8 false 0 0 ARhs 0 8;
   NMlalU8 4 0 1 0 0;
   NMlalU8 8 1 0 0 0;
   NMlalU8 12 1 1 0 0;
   NRot8 0 0 2;
   NMlalU8 5 0 1 0 0;
   NMlalU8 9 1 0 0 0;
   NMlalU8 13 1 1 0 0;
   NRot8 0 0 2;
   NMlalU8 6 0 1 0 0;
   NMlalU8 10 1 0 0 0;
   NMlalU8 14 1 1 0 0;
   NRot8 0 0 2;
   NMlalU8 7 0 1 0 0;
   NMlalU8 11 1 0 0 0;
   NMlalU8 15 1 1 0 0;
   ASub ARun ARun 2;
   NLd8 false 0 1 ALhs 0 8;
   NLd8 false 1 0 ALhs 0 8;
   NLd8 false 1 1 ALhs 0 8;
   NLd8 false 0 0 ARhs 0 8;
   NMlalU8 4 0 1 0 0;
   NMlalU8 8 1 0 0 0;
   NMlalU8 12 1 1 0 0;
   NRot8 0 0 2;
   NMlalU8 5 0 1 0 0;
   NMlalU8 9 1 0 0 0;
   NMlalU8 13 1 1 0 0;
   NRot8 0 0 2;
   NMlalU8 6 0 1 0 0;
   NMlalU8 10 1 0 0 0;
   NMlalU8 14 1 1 0 0;
   NRot8 0 0 2;
   NMlalU8 7 0 1 0 0;
   NMlalU8 11 1 0 0 0;
   NMlalU8 15 1 1 0 0;
   ASub ARun ARun 2;
   NLd8 false 0 1 ALhs 0 8;
   NLd8 false 1 0 ALhs 0 8;
   NLd8 false 1 1 ALhs 0 8;
   NLd8 false 0 0 ARhs 0 8;
   NMlalU8 4 0 1 0 0;
   NMlalU8 8 1 0 0 0;
   NMlalU8 12 1 1 0 0;
   NRot8 0 0 2;
   NMlalU8 5 0 1 0 0;
   NMlalU8 9 1 0 0 0;
   NMlalU8 13 1 1 0 0;
   NRot8 0 0 2;
   NMlalU8 6 0 1 0 0;
   NMlalU8 10 1 0 0 0;
   NMlalU8 14 1 1 0 0;
   NRot8 0 0 2;
   NMlalU8 7 0 1 0 0;
   NMlalU8 11 1 0 0 0;
   NMlalU8 15 1 1 0 0;
   ASub ARun ARun 2;
   NLd8 false 0 1 ALhs 0 8;
   NLd8 false 1 0 ALhs 0 8;
   NLd8 false 1 1 ALhs 0 8;
   NLd8 false 0 0 ARhs 0 8;
   NMlalU8 4 0 1 0 0;
   NMlalU8 8 1 0 0 0;
   NMlalU8 12 1 1 0 0;
   NRot8 0 0 2;
   NMlalU8 5 0 1 0 0;
   NMlalU8 9 1 0 0 0;
   NMlalU8 13 1 1 0 0;
   NRot8 0 0 2;
   NMlalU8 6 0 1 0 0;
   NMlalU8 10 1 0 0 0;
   NMlalU8 14 1 1 0 0;
   NRot8 0 0 2;
   NMlalU8 7 0 1 0 0;
   NMlalU8 11 1 0 0 0;
   NMlalU8 15 1 1 0 0;
   ASub ARun ARun 2;
   NLd8 false 0 1 ALhs 0 8;
   NLd8 false 1 0 ALhs 0 8;
   NLd8 false 1 1 ALhs 0 8;
   NLd8 false 0 0 ARhs 0 8;
   NMlalU8 4 0 1 0 0;
   NMlalU8 8 1 0 0 0;
   NMlalU8 12 1 1 0 0;
   NRot8 0 0 2;
   NMlalU8 5 0 1 0 0;
   NMlalU8 9 1 0 0 0;
   NMlalU8 13 1 1 0 0;
   NRot8 0 0 2;
   NMlalU8 6 0 1 0 0;
   NMlalU8 10 1 0 0 0;
   NMlalU8 14 1 1 0 0;
   NRot8 0 0 2;
   NMlalU8 7 0 1 0 0;
   NMlalU8 11 1 0 0 0;
   NMlalU8 15 1 1 0 0;
   ASub ARun ARun 2;
   NLd8 false 0 1 ALhs 0 8;
   NLd8 false 1 0 ALhs 0 8;
   NLd8 false 1 1 ALhs 0 8;
   NLd8 false 0 0 ARhs 0 8;
   NMlalU8 4 0 1 0 0;
   NMlalU8 8 1 0 0 0;
   NMlalU8 12 1 1 0 0;
   NRot8 0 0 2;
   NMlalU8 5 0 1 0 0;
   NMlalU8 9 1 0 0 0;
   NMlalU8 13 1 1 0 0;
   NRot8 0 0 2;
   NMlalU8 6 0 1 0 0;
   NMlalU8 10 1 0 0 0;
   NMlalU8 14 1 1 0 0;
   NRot8 0 0 2;
   NMlalU8 7 0 1 0 0;
   NMlalU8 11 1 0 0 0;
   NMlalU8 15 1 1 0 0;
   ASub ARun ARun 2;
   NLd8 false 0 1 ALhs 0 8;
   NLd8 false 1 0 ALhs 0 8;
   NLd8 false 1 1 ALhs 0 8;
   NLd8 false 0 0 ARhs 0 8;
   NMlalU8 4 0 1 0 0;
   NMlalU8 8 1 0 0 0;
   NMlalU8 12 1 1 0 0;
   NRot8 0 0 2;
   NMlalU8 5 0 1 0 0;
   NMlalU8 9 1 0 0 0;
   NMlalU8 13 1 1 0 0;
   NRot8 0 0 2;
   NMlalU8 6 0 1 0 0;
   NMlalU8 10 1 0 0 0;
   NMlalU8 14 1 1 0 0;
   NRot8 0 0 2;
   NMlalU8 7 0 1 0 0;
   NMlalU8 11 1 0 0 0;
   NMlalU8 15 1 1 0 0;
   ASub ARun ARun 2;
   NLd8 false 0 1 ALhs 0 8;
   NLd8 false 1 0 ALhs 0 8;
   NLd8 false 1 1 ALhs 0 8;
   NLd8 false 0 0 ARhs 0 8;
   NMlalU8 4 0 1 0 0;
   NMlalU8 8 1 0 0 0;
   NMlalU8 12 1 1 0 0;
   NRot8 0 0 2;
   NMlalU8 5 0 1 0 0;
   NMlalU8 9 1 0 0 0;
   NMlalU8 13 1 1 0 0;
   NRot8 0 0 2;
   NMlalU8 6 0 1 0 0;
   NMlalU8 10 1 0 0 0;
   NMlalU8 14 1 1 0 0;
   NRot8 0 0 2;
   NMlalU8 7 0 1 0 0;
   NMlalU8 11 1 0 0 0;
   NMlalU8 15 1 1 0 0;
   ASub ARun ARun 2;
   AMov AR0 AGlob;
   AMov AR1 AGlob;
   NLdW SLoc 0 AR0 (OImm 16);
   NLdW SLoc 1 AR0 (OImm 16);
   NLdW SLoc 2 AR0 (OImm 16);
   NLdW SLoc 3 AR0 (OImm 16);
   NPadalU 0 4;
   NPadalU 1 5;
   NPadalU 2 6;
   NPadalU 3 7;
   NStW SLoc 0 AR1 (OImm 16);
   NStW SLoc 1 AR1 (OImm 16);
   NStW SLoc 2 AR1 (OImm 16);
   NStW SLoc 3 AR1 (OImm 16);
   NLdW SLoc 0 AR0 (OImm 16);
   NLdW SLoc 1 AR0 (OImm 16);
   NLdW SLoc 2 AR0 (OImm 16);
   NLdW SLoc 3 AR0 (OImm 16);
   NPadalU 0 8;
   NPadalU 1 9;
   NPadalU 2 10;
   NPadalU 3 11;
   NStW SLoc 0 AR1 (OImm 16);
   NStW SLoc 1 AR1 (OImm 16);
   NStW SLoc 2 AR1 (OImm 16);
   NStW SLoc 3 AR1 (OImm 16);
   NLdW SLoc 0 AR0 (OImm 16);
   NLdW SLoc 1 AR0 (OImm 16);
   NLdW SLoc 2 AR0 (OImm 16);
   NLdW SLoc 3 AR0 (OImm 16);
   NPadalU 0 12;
   NPadalU 1 13;
   NPadalU 2 14;
   NPadalU 3 15;
   NStW SLoc 0 AR1 (OImm 16);
   NStW SLoc 1 AR1 (OImm 16);
   NStW SLoc 2 AR1 (OImm 16);
   NStW SLoc 3 AR1 (OImm 16);
   ACmp ARun 0;
   ABr CNE 63;
   AMov AR0 AGlob;
   NLd4 0 0 1 2 3 AR0 32;
   NLd4 1 0 1 2 3 AR0 32;
   NLd4 0 4 5 6 7 AR0 32;
   NLd4 1 4 5 6 7 AR0 32;
   NLd4 0 8 9 10 11 AR0 32;
   NLd4 1 8 9 10 11 AR0 32;
   NRot32 1 3;
   NRot32 2 2;
   NRot32 3 1;
   NRot32 5 3;
   NRot32 6 2;
   NRot32 7 1;
   NRot32 9 3;
   NRot32 10 2;
   NRot32 11 1;
   NTrn 0 1;
   NTrn 2 3;
   NSwp 0 1 2 0;
   NSwp 1 1 3 0;
   NTrn 4 5;
   NTrn 6 7;
   NSwp 4 1 6 0;
   NSwp 5 1 7 0;
   NTrn 8 9;
   NTrn 10 11;
   NSwp 8 1 10 0;
   NSwp 9 1 11 0;
   AMov AR1 ADst;
   AMov AR0 AStride;
   ASub AR0 AR0 32;
   NStW SDst 0 AR1 (OImm 16);
   NStW SDst 4 AR1 (OImm 16);
   NStW SDst 8 AR1 (OReg AR0);
   NStW SDst 1 AR1 (OImm 16);
   NStW SDst 5 AR1 (OImm 16);
   NStW SDst 9 AR1 (OReg AR0);
   NStW SDst 2 AR1 (OImm 16);
   NStW SDst 6 AR1 (OImm 16);
   NStW SDst 10 AR1 (OReg AR0);
   NStW SDst 3 AR1 (OImm 16);
   NStW SDst 7 AR1 (OImm 16);
   NStW SDst 11 AR1 (OReg AR0)].

(* kernel_neon.h 669-925; labels: 2 = 17, 1 = 58, 3 = 85, 4 = 94 *)
Definition NEON_32bit_GEMM_Int8Operands_LhsNonzero_asm : list aop :=
  [ALsl AStride AStride 2;
   NLd8 false 0 0 ARhs 0 0;
   NZero 8;
   NLd8 false 2 0 ALhs 0 0;
   NZero 9;
   NLd8 false 1 0 ARhs 16 0;
   NMovQ 10 8;
   NLd8 false 3 0 ALhs 16 0;
   NMovQ 11 8;
   NLd8 false 0 1 ARhs 8 0;
   NMovQ 12 8;
   NLd8 false 2 1 ALhs 8 0;
   NMovQ 13 8;
   NLd8 false 1 1 ARhs 24 0;
   NMovQ 14 8;
   NLd8 false 3 1 ALhs 24 0;
   NMovQ 15 8;
   NMull8 4 0 0 2 0;
   AAdd ARhs ARhs (OImm 32);
   NMull8 5 1 0 2 0;
   NLd8 false 2 0 ALhs 32 0;
   NMull8 6 0 0 3 0;
   NMull8 7 1 0 3 0;
   NLd8 false 3 0 ALhs 48 0;
   NMlal8 4 0 1 2 1;
   NMlal8 5 1 1 2 1;
   NLd8 false 2 1 ALhs 40 0;
   NMlal8 6 0 1 3 1;
   NMlal8 7 1 1 3 1;
   NLd8 false 3 1 ALhs 56 0;
   NPadal 8 4;
   AAdd ALhs ALhs (OImm 64);
   NPadal 9 5;
   ASubs ARun ARun 16;
   NPadal 10 6;
   NPadal 11 7;
   ABr CEQ 58;
   NMull8 4 0 0 2 0;
   NMull8 5 1 0 2 0;
   NLd8 false 2 0 ALhs 0 0;
   NMull8 6 0 0 3 0;
   NLd8 false 0 0 ARhs 0 0;
   NMull8 7 1 0 3 0;
   NLd8 false 1 0 ARhs 16 0;
   NMlal8 4 0 1 2 1;
   NLd8 false 3 0 ALhs 16 0;
   NMlal8 5 1 1 2 1;
   NLd8 false 2 1 ALhs 8 0;
   NMlal8 6 0 1 3 1;
   NLd8 false 0 1 ARhs 8 0;
   NMlal8 7 1 1 3 1;
   NLd8 false 1 1 ARhs 24 0;
   NPadal 12 4;
   NLd8 false 3 1 ALhs 24 0;
   NPadal 13 5;
   NPadal 14 6;
   NPadal 15 7;
   ABr CAL 17;
   NMull8 4 0 0 2 0;
   NMull8 5 1 0 2 0;
   NMull8 6 0 0 3 0;
   NMull8 7 1 0 3 0;
   NMlal8 4 0 1 2 1;
   NMlal8 5 1 1 2 1;
   NMlal8 6 0 1 3 1;
   NMlal8 7 1 1 3 1;
   NPadal 12 4;
   NPadal 13 5;
   NPadal 14 6;
   NPadal 15 7;
   ACmp AStart 0;
   NPaddD 0 0 8 0 8 1;
   NPaddD 0 1 9 0 9 1;
   NPaddD 1 0 10 0 10 1;
   NPaddD 1 1 11 0 11 1;
   NPaddD 2 0 12 0 12 1;
   NPaddD 2 1 13 0 13 1;
   NPaddD 3 0 14 0 14 1;
   NPaddD 3 1 15 0 15 1;
   ABr CNE 85;
   NPaddD 4 0 0 0 1 0;
   NPaddD 4 1 2 0 3 0;
   NPaddD 5 0 0 1 1 1;
   NPaddD 5 1 2 1 3 1;
   ABr CAL 94;
   AMov AR0 ADst;
   NLdW SDst 8 AR0 (OReg AStride);
   NPaddD 4 0 0 0 1 0;
   NPaddD 4 1 2 0 3 0;
   NLdW SDst 9 AR0 (OImm 0);
   NPaddD 5 0 0 1 1 1;
   NPaddD 5 1 2 1 3 1;
   NAddQ 4 8 4;
   NAddQ 5 9 5;
   AMov AR0 ADst;
   NStW SDst 4 AR0 (OReg AStride);
   NStW SDst 5 AR0 (OImm 0)].

(* kernel_neon.h 943-1277; labels: 2 = 43, 1 = 101, 3 = 148, 4 = 161 *)
Definition NEON_64bit_GEMM_Int8Operands_LhsNonzero_asm : list aop :=
  [NLd16 0 ARhs 16;
   NZero 16;
   NLd16 4 ALhs 16;
   NZero 17;
   NLd16 1 ARhs 16;
   NZero 18;
   NLd16 5 ALhs 16;
   NZero 19;
   NLd16 2 ARhs 16;
   NZero 20;
   NLd16 3 ARhs 16;
   NZero 21;
   NLd16 6 ALhs 16;
   NZero 22;
   NLd16 7 ALhs 16;
   NZero 23;
   NZero 24;
   NZero 25;
   NZero 26;
   NZero 27;
   NZero 28;
   NZero 29;
   NZero 30;
   NZero 31;
   ALsl AStride AStride 2;
   NMull8 8 0 0 4 0;
   NMull8 9 1 0 4 0;
   NMull8 10 2 0 4 0;
   NMull8 11 3 0 4 0;
   NMull8 12 0 0 5 0;
   NMull8 13 1 0 5 0;
   NMull8 14 2 0 5 0;
   NMull8 15 3 0 5 0;
   NMlal8 8 0 1 4 1;
   NMlal8 9 1 1 4 1;
   NMlal8 10 2 1 4 1;
   NMlal8 11 3 1 4 1;
   NMlal8 12 0 1 5 1;
   NMlal8 13 1 1 5 1;
   NMlal8 14 2 1 5 1;
   NMlal8 15 3 1 5 1;
   ASubs ARun ARun 16;
   ABr CEQ 101;
   NPadal 16 8;
   NLd16 4 ALhs 16;
   NMull8 8 0 0 6 0;
   NPadal 17 9;
   NLd16 5 ALhs 16;
   NMull8 9 1 0 6 0;
   NPadal 18 10;
   NMull8 10 2 0 6 0;
   NPadal 19 11;
   NMull8 11 3 0 6 0;
   NPadal 20 12;
   NMull8 12 0 0 7 0;
   NPadal 21 13;
   NMull8 13 1 0 7 0;
   NPadal 22 14;
   NMull8 14 2 0 7 0;
   NPadal 23 15;
   NMull8 15 3 0 7 0;
   NMlal8 8 0 1 6 1;
   NMlal8 9 1 1 6 1;
   NMlal8 10 2 1 6 1;
   NMlal8 11 3 1 6 1;
   NLd16 6 ALhs 16;
   NMlal8 12 0 1 7 1;
   NLd16 0 ARhs 16;
   NMlal8 13 1 1 7 1;
   NLd16 1 ARhs 16;
   NMlal8 14 2 1 7 1;
   NLd16 2 ARhs 16;
   NMlal8 15 3 1 7 1;
   NLd16 3 ARhs 16;
   NPadal 24 8;
   NMull8 8 0 0 4 0;
   NPadal 25 9;
   NLd16 7 ALhs 16;
   NMull8 9 1 0 4 0;
   NPadal 26 10;
   NMull8 10 2 0 4 0;
   NPadal 27 11;
   NMull8 11 3 0 4 0;
   NPadal 28 12;
   NMull8 12 0 0 5 0;
   NPadal 29 13;
   NMull8 13 1 0 5 0;
   NPadal 30 14;
   NMull8 14 2 0 5 0;
   NPadal 31 15;
   NMull8 15 3 0 5 0;
   NMlal8 8 0 1 4 1;
   NMlal8 9 1 1 4 1;
   NMlal8 10 2 1 4 1;
   NMlal8 11 3 1 4 1;
   ASubs ARun ARun 16;
   NMlal8 12 0 1 5 1;
   NMlal8 13 1 1 5 1;
   NMlal8 14 2 1 5 1;
   NMlal8 15 3 1 5 1;
   ABr CNE 43;
   NPadal 16 8;
   NMull8 8 0 0 6 0;
   NPadal 17 9;
   NMull8 9 1 0 6 0;
   NPadal 18 10;
   NMull8 10 2 0 6 0;
   NPadal 19 11;
   NMull8 11 3 0 6 0;
   NPadal 20 12;
   NMull8 12 0 0 7 0;
   NPadal 21 13;
   NMull8 13 1 0 7 0;
   NPadal 22 14;
   NMull8 14 2 0 7 0;
   NPadal 23 15;
   NMull8 15 3 0 7 0;
   NMlal8 8 0 1 6 1;
   NMlal8 9 1 1 6 1;
   NMlal8 10 2 1 6 1;
   NMlal8 11 3 1 6 1;
   NMlal8 12 0 1 7 1;
   NMlal8 13 1 1 7 1;
   NMlal8 14 2 1 7 1;
   NMlal8 15 3 1 7 1;
   NPadal 24 8;
   NPadal 25 9;
   NPadal 26 10;
   NPadal 27 11;
   NPadal 28 12;
   NPadal 29 13;
   NPadal 30 14;
   NPadal 31 15;
   NAddp 0 16 20;
   NAddp 2 17 21;
   NAddp 4 18 22;
   NAddp 6 19 23;
   NAddp 1 24 28;
   NAddp 3 25 29;
   NAddp 5 26 30;
   NAddp 7 27 31;
   ACmp AStart 0;
   ABr CNE 148;
   NAddp 12 0 1;
   NAddp 13 2 3;
   NAddp 14 4 5;
   NAddp 15 6 7;
   ABr CAL 161;
   AMov AR0 ADst;
   NLdW SDst 12 AR0 (OReg AStride);
   NAddp 8 0 1;
   NLdW SDst 13 AR0 (OReg AStride);
   NAddp 9 2 3;
   NLdW SDst 14 AR0 (OReg AStride);
   NAddp 10 4 5;
   NLdW SDst 15 AR0 (OImm 0);
   NAddp 11 6 7;
   NAddQ 12 12 8;
   NAddQ 13 13 9;
   NAddQ 14 14 10;
   NAddQ 15 15 11;
   AMov AR0 ADst;
   NStW SDst 12 AR0 (OReg AStride);
   NStW SDst 13 AR0 (OReg AStride);
   NStW SDst 14 AR0 (OReg AStride);
   NStW SDst 15 AR0 (OImm 0)].

(* kernel_neon.h 1291-1639; labels: 1 = 50, 2 = 75, 3 = 76, 4 = 136 *)
Definition NEON_64_Kernel12x8Depth2_asm : list aop :=
  [NLd8 true 5 0 ARhs 0 8;
   NLd8 true 6 0 ARhs 0 8;
   NLd8 true 2 0 ALhs 0 8;
   NLd8 true 3 0 ALhs 0 8;
   NLd8 true 4 0 ALhs 0 8;
   ALsl AStride AStride 2;
   ACmp AStart 0;
   ABr CEQ 50;
   AMov AR1 ADst;
   AMov AR0 AR1;
   NLdW SDst 8 AR0 (OImm 16);
   ASubs ARun ARun 2;
   NLdW SDst 16 AR0 (OImm 16);
   AAdd AR1 AR1 (OReg AStride);
   NLdW SDst 24 AR0 (OImm 0);
   AMov AR0 AR1;
   NLdW SDst 9 AR0 (OImm 16);
   AAdd AR1 AR1 (OReg AStride);
   NLdW SDst 17 AR0 (OImm 16);
   NLdW SDst 25 AR0 (OImm 0);
   AMov AR0 AR1;
   NLdW SDst 10 AR0 (OImm 16);
   AAdd AR1 AR1 (OReg AStride);
   NLdW SDst 18 AR0 (OImm 16);
   NLdW SDst 26 AR0 (OImm 0);
   AMov AR0 AR1;
   NLdW SDst 11 AR0 (OImm 16);
   AAdd AR1 AR1 (OReg AStride);
   NLdW SDst 19 AR0 (OImm 16);
   NLdW SDst 27 AR0 (OImm 0);
   AMov AR0 AR1;
   NLdW SDst 12 AR0 (OImm 16);
   AAdd AR1 AR1 (OReg AStride);
   NLdW SDst 20 AR0 (OImm 16);
   NLdW SDst 28 AR0 (OImm 0);
   AMov AR0 AR1;
   NLdW SDst 13 AR0 (OImm 16);
   AAdd AR1 AR1 (OReg AStride);
   NLdW SDst 21 AR0 (OImm 16);
   NLdW SDst 29 AR0 (OImm 0);
   AMov AR0 AR1;
   NLdW SDst 14 AR0 (OImm 16);
   AAdd AR1 AR1 (OReg AStride);
   NLdW SDst 22 AR0 (OImm 16);
   NLdW SDst 30 AR0 (OImm 0);
   AMov AR0 AR1;
   NLdW SDst 15 AR0 (OImm 16);
   NLdW SDst 23 AR0 (OImm 16);
   NLdW SDst 31 AR0 (OImm 0);
   ABr CAL 75;
   NZero 8;
   ASubs ARun ARun 2;
   NZero 9;
   NZero 10;
   NZero 11;
   NZero 12;
   NZero 13;
   NZero 14;
   NZero 15;
   NZero 16;
   NZero 17;
   NZero 18;
   NZero 19;
   NZero 20;
   NZero 21;
   NZero 22;
   NZero 23;
   NZero 24;
   NZero 25;
   NZero 26;
   NZero 27;
   NZero 28;
   NZero 29;
   NZero 30;
   NZero 31;
   ABr CEQ 136;
   NMovl 0 5 0;
   NLd8 true 5 0 ARhs 0 8;
   NMovl 1 6 0;
   NLd8 true 6 0 ARhs 0 8;
   NMovl 2 2 0;
   NMovl 3 3 0;
   NMovl 4 4 0;
   NMlal16 8 2 0 0 0;
   NMlal16 9 2 0 0 1;
   NMlal16 10 2 0 0 2;
   NMlal16 11 2 0 0 3;
   NMlal16 12 2 0 1 0;
   NMlal16 13 2 0 1 1;
   NMlal16 14 2 0 1 2;
   NMlal16 15 2 0 1 3;
   NMlal16 8 2 1 0 4;
   NMlal16 9 2 1 0 5;
   NMlal16 10 2 1 0 6;
   NMlal16 11 2 1 0 7;
   NMlal16 12 2 1 1 4;
   NMlal16 13 2 1 1 5;
   NMlal16 14 2 1 1 6;
   NMlal16 15 2 1 1 7;
   NLd8 true 2 0 ALhs 0 8;
   NMlal16 16 3 0 0 0;
   NMlal16 17 3 0 0 1;
   NMlal16 18 3 0 0 2;
   NMlal16 19 3 0 0 3;
   NMlal16 20 3 0 1 0;
   NMlal16 21 3 0 1 1;
   NMlal16 22 3 0 1 2;
   NMlal16 23 3 0 1 3;
   NMlal16 16 3 1 0 4;
   NMlal16 17 3 1 0 5;
   NMlal16 18 3 1 0 6;
   NMlal16 19 3 1 0 7;
   NMlal16 20 3 1 1 4;
   NMlal16 21 3 1 1 5;
   NMlal16 22 3 1 1 6;
   NMlal16 23 3 1 1 7;
   NLd8 true 3 0 ALhs 0 8;
   ASubs ARun ARun 2;
   NMlal16 24 4 0 0 0;
   NMlal16 25 4 0 0 1;
   NMlal16 26 4 0 0 2;
   NMlal16 27 4 0 0 3;
   NMlal16 28 4 0 1 0;
   NMlal16 29 4 0 1 1;
   NMlal16 30 4 0 1 2;
   NMlal16 31 4 0 1 3;
   NMlal16 24 4 1 0 4;
   NMlal16 25 4 1 0 5;
   NMlal16 26 4 1 0 6;
   NMlal16 27 4 1 0 7;
   NMlal16 28 4 1 1 4;
   NMlal16 29 4 1 1 5;
   NMlal16 30 4 1 1 6;
   NMlal16 31 4 1 1 7;
   NLd8 true 4 0 ALhs 0 8;
   ABr CNE 76;
   NMovl 0 5 0;
   NMovl 1 6 0;
   NMovl 2 2 0;
   NMovl 3 3 0;
   NMovl 4 4 0;
   NMlal16 8 2 0 0 0;
   NMlal16 9 2 0 0 1;
   NMlal16 10 2 0 0 2;
   NMlal16 11 2 0 0 3;
   NMlal16 12 2 0 1 0;
   NMlal16 13 2 0 1 1;
   NMlal16 14 2 0 1 2;
   NMlal16 15 2 0 1 3;
   NMlal16 16 3 0 0 0;
   NMlal16 17 3 0 0 1;
   NMlal16 18 3 0 0 2;
   NMlal16 19 3 0 0 3;
   NMlal16 20 3 0 1 0;
   NMlal16 21 3 0 1 1;
   NMlal16 22 3 0 1 2;
   NMlal16 23 3 0 1 3;
   NMlal16 24 4 0 0 0;
   NMlal16 25 4 0 0 1;
   NMlal16 26 4 0 0 2;
   NMlal16 27 4 0 0 3;
   NMlal16 28 4 0 1 0;
   NMlal16 29 4 0 1 1;
   NMlal16 30 4 0 1 2;
   NMlal16 31 4 0 1 3;
   NMlal16 8 2 1 0 4;
   NMlal16 9 2 1 0 5;
   NMlal16 10 2 1 0 6;
   NMlal16 11 2 1 0 7;
   NMlal16 12 2 1 1 4;
   NMlal16 13 2 1 1 5;
   NMlal16 14 2 1 1 6;
   NMlal16 15 2 1 1 7;
   NMlal16 16 3 1 0 4;
   NMlal16 17 3 1 0 5;
   NMlal16 18 3 1 0 6;
   NMlal16 19 3 1 0 7;
   NMlal16 20 3 1 1 4;
   NMlal16 21 3 1 1 5;
   NMlal16 22 3 1 1 6;
   NMlal16 23 3 1 1 7;
   NMlal16 24 4 1 0 4;
   NMlal16 25 4 1 0 5;
   NMlal16 26 4 1 0 6;
   NMlal16 27 4 1 0 7;
   NMlal16 28 4 1 1 4;
   NMlal16 29 4 1 1 5;
   NMlal16 30 4 1 1 6;
   NMlal16 31 4 1 1 7;
   AMov AR1 ADst;
   AMov AR0 AR1;
   NStW SDst 8 AR0 (OImm 16);
   ASubs ARun ARun 2;
   NStW SDst 16 AR0 (OImm 16);
   AAdd AR1 AR1 (OReg AStride);
   NStW SDst 24 AR0 (OImm 0);
   AMov AR0 AR1;
   NStW SDst 9 AR0 (OImm 16);
   AAdd AR1 AR1 (OReg AStride);
   NStW SDst 17 AR0 (OImm 16);
   NStW SDst 25 AR0 (OImm 0);
   AMov AR0 AR1;
   NStW SDst 10 AR0 (OImm 16);
   AAdd AR1 AR1 (OReg AStride);
   NStW SDst 18 AR0 (OImm 16);
   NStW SDst 26 AR0 (OImm 0);
   AMov AR0 AR1;
   NStW SDst 11 AR0 (OImm 16);
   AAdd AR1 AR1 (OReg AStride);
   NStW SDst 19 AR0 (OImm 16);
   NStW SDst 27 AR0 (OImm 0);
   AMov AR0 AR1;
   NStW SDst 12 AR0 (OImm 16);
   AAdd AR1 AR1 (OReg AStride);
   NStW SDst 20 AR0 (OImm 16);
   NStW SDst 28 AR0 (OImm 0);
   AMov AR0 AR1;
   NStW SDst 13 AR0 (OImm 16);
   AAdd AR1 AR1 (OReg AStride);
   NStW SDst 21 AR0 (OImm 16);
   NStW SDst 29 AR0 (OImm 0);
   AMov AR0 AR1;
   NStW SDst 14 AR0 (OImm 16);
   AAdd AR1 AR1 (OReg AStride);
   NStW SDst 22 AR0 (OImm 16);
   NStW SDst 30 AR0 (OImm 0);
   AMov AR0 AR1;
   NStW SDst 15 AR0 (OImm 16);
   NStW SDst 23 AR0 (OImm 16);
   NStW SDst 31 AR0 (OImm 0)].

(* kernel_neon.h 1665-1906; labels: 1 = 44, 2 = 68, 3 = 72, 4 = 103 *)
Definition NEON_64_Kernel12x8Depth4_dotprod_asm : list aop :=
  [ALsl AStride AStride 2;
   ACmp AStart 0;
   ABr CEQ 44;
   AMov AR1 ADst;
   AMov AR0 AR1;
   NLdW SDst 8 AR0 (OImm 16);
   NLdW SDst 16 AR0 (OImm 16);
   AAdd AR1 AR1 (OReg AStride);
   NLdW SDst 24 AR0 (OImm 0);
   AMov AR0 AR1;
   NLdW SDst 9 AR0 (OImm 16);
   AAdd AR1 AR1 (OReg AStride);
   NLdW SDst 17 AR0 (OImm 16);
   NLdW SDst 25 AR0 (OImm 0);
   AMov AR0 AR1;
   NLdW SDst 10 AR0 (OImm 16);
   AAdd AR1 AR1 (OReg AStride);
   NLdW SDst 18 AR0 (OImm 16);
   NLdW SDst 26 AR0 (OImm 0);
   AMov AR0 AR1;
   NLdW SDst 11 AR0 (OImm 16);
   AAdd AR1 AR1 (OReg AStride);
   NLdW SDst 19 AR0 (OImm 16);
   NLdW SDst 27 AR0 (OImm 0);
   AMov AR0 AR1;
   NLdW SDst 12 AR0 (OImm 16);
   AAdd AR1 AR1 (OReg AStride);
   NLdW SDst 20 AR0 (OImm 16);
   NLdW SDst 28 AR0 (OImm 0);
   AMov AR0 AR1;
   NLdW SDst 13 AR0 (OImm 16);
   AAdd AR1 AR1 (OReg AStride);
   NLdW SDst 21 AR0 (OImm 16);
   NLdW SDst 29 AR0 (OImm 0);
   AMov AR0 AR1;
   NLdW SDst 14 AR0 (OImm 16);
   AAdd AR1 AR1 (OReg AStride);
   NLdW SDst 22 AR0 (OImm 16);
   NLdW SDst 30 AR0 (OImm 0);
   AMov AR0 AR1;
   NLdW SDst 15 AR0 (OImm 16);
   NLdW SDst 23 AR0 (OImm 16);
   NLdW SDst 31 AR0 (OImm 0);
   ABr CAL 68;
   NZero 8;
   NZero 9;
   NZero 10;
   NZero 11;
   NZero 12;
   NZero 13;
   NZero 14;
   NZero 15;
   NZero 16;
   NZero 17;
   NZero 18;
   NZero 19;
   NZero 20;
   NZero 21;
   NZero 22;
   NZero 23;
   NZero 24;
   NZero 25;
   NZero 26;
   NZero 27;
   NZero 28;
   NZero 29;
   NZero 30;
   NZero 31;
   ASubs ARun ARun 4;
   NLd16 0 ARhs 16;
   NLd16 2 ALhs 16;
   ABr CEQ 103;
   NUdot 8 2 0 0;
   NUdot 9 2 0 1;
   NLd16 1 ARhs 16;
   NUdot 10 2 0 2;
   NUdot 11 2 0 3;
   NLd16 3 ALhs 16;
   NUdot 12 2 1 0;
   NUdot 13 2 1 1;
   NLd16 4 ALhs 16;
   NUdot 14 2 1 2;
   NUdot 15 2 1 3;
   NLd16 2 ALhs 16;
   NUdot 16 3 0 0;
   NUdot 17 3 0 1;
   NUdot 18 3 0 2;
   NUdot 19 3 0 3;
   NUdot 20 3 1 0;
   NUdot 21 3 1 1;
   NUdot 22 3 1 2;
   NUdot 23 3 1 3;
   NUdot 24 4 0 0;
   NUdot 25 4 0 1;
   NUdot 26 4 0 2;
   NUdot 27 4 0 3;
   NLd16 0 ARhs 16;
   NUdot 28 4 1 0;
   NUdot 29 4 1 1;
   ASubs ARun ARun 4;
   NUdot 30 4 1 2;
   NUdot 31 4 1 3;
   ABr CNE 72;
   NUdot 8 2 0 0;
   NUdot 9 2 0 1;
   NLd16 1 ARhs 16;
   NUdot 10 2 0 2;
   NUdot 11 2 0 3;
   NLd16 3 ALhs 16;
   NUdot 12 2 1 0;
   NUdot 13 2 1 1;
   NLd16 4 ALhs 16;
   NUdot 14 2 1 2;
   NUdot 15 2 1 3;
   NUdot 16 3 0 0;
   NUdot 17 3 0 1;
   NUdot 18 3 0 2;
   NUdot 19 3 0 3;
   NUdot 20 3 1 0;
   NUdot 21 3 1 1;
   NUdot 22 3 1 2;
   NUdot 23 3 1 3;
   NUdot 24 4 0 0;
   NUdot 25 4 0 1;
   NUdot 26 4 0 2;
   NUdot 27 4 0 3;
   NUdot 28 4 1 0;
   NUdot 29 4 1 1;
   ASubs ARun ARun 4;
   NUdot 30 4 1 2;
   NUdot 31 4 1 3;
   AMov AR1 ADst;
   AMov AR0 AR1;
   NStW SDst 8 AR0 (OImm 16);
   NStW SDst 16 AR0 (OImm 16);
   AAdd AR1 AR1 (OReg AStride);
   NStW SDst 24 AR0 (OImm 0);
   AMov AR0 AR1;
   NStW SDst 9 AR0 (OImm 16);
   AAdd AR1 AR1 (OReg AStride);
   NStW SDst 17 AR0 (OImm 16);
   NStW SDst 25 AR0 (OImm 0);
   AMov AR0 AR1;
   NStW SDst 10 AR0 (OImm 16);
   AAdd AR1 AR1 (OReg AStride);
   NStW SDst 18 AR0 (OImm 16);
   NStW SDst 26 AR0 (OImm 0);
   AMov AR0 AR1;
   NStW SDst 11 AR0 (OImm 16);
   AAdd AR1 AR1 (OReg AStride);
   NStW SDst 19 AR0 (OImm 16);
   NStW SDst 27 AR0 (OImm 0);
   AMov AR0 AR1;
   NStW SDst 12 AR0 (OImm 16);
   AAdd AR1 AR1 (OReg AStride);
   NStW SDst 20 AR0 (OImm 16);
   NStW SDst 28 AR0 (OImm 0);
   AMov AR0 AR1;
   NStW SDst 13 AR0 (OImm 16);
   AAdd AR1 AR1 (OReg AStride);
   NStW SDst 21 AR0 (OImm 16);
   NStW SDst 29 AR0 (OImm 0);
   AMov AR0 AR1;
   NStW SDst 14 AR0 (OImm 16);
   AAdd AR1 AR1 (OReg AStride);
   NStW SDst 22 AR0 (OImm 16);
   NStW SDst 30 AR0 (OImm 0);
   AMov AR0 AR1;
   NStW SDst 15 AR0 (OImm 16);
   NStW SDst 23 AR0 (OImm 16);
   NStW SDst 31 AR0 (OImm 0)].

(* the .word instructions of the dotprod kernel, in order *)
Definition dotprod_words : list Z :=
  [0x6f80e048; 0x6fa0e049; 0x6f80e84a; 0x6fa0e84b; 0x6f81e04c; 0x6fa1e04d;
   0x6f81e84e; 0x6fa1e84f; 0x6f80e070; 0x6fa0e071; 0x6f80e872; 0x6fa0e873;
   0x6f81e074; 0x6fa1e075; 0x6f81e876; 0x6fa1e877; 0x6f80e098; 0x6fa0e099;
   0x6f80e89a; 0x6fa0e89b; 0x6f81e09c; 0x6fa1e09d; 0x6f81e89e; 0x6fa1e89f;
   0x6f80e048; 0x6fa0e049; 0x6f80e84a; 0x6fa0e84b; 0x6f81e04c; 0x6fa1e04d;
   0x6f81e84e; 0x6fa1e84f; 0x6f80e070; 0x6fa0e071; 0x6f80e872; 0x6fa0e873;
   0x6f81e074; 0x6fa1e075; 0x6f81e876; 0x6fa1e877; 0x6f80e098; 0x6fa0e099;
   0x6f80e89a; 0x6fa0e89b; 0x6f81e09c; 0x6fa1e09d; 0x6f81e89e; 0x6fa1e89f].
