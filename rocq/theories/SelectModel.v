(* SelectModel.v: which kernel the library picks at compile time *)
From Verif Require Import Base.

(* public/bit_depth.h 27-31: OperandRange<min, max>, with the static_assert min < max *)
Record operand_range : Type := mk_range { or_min : Z; or_max : Z }.
Definition range_ok (r : operand_range) : Prop := or_min r < or_max r.
(* public/bit_depth.h 33-62 *)
Definition Uint8Range := mk_range 0 255.
Definition Uint8RangeExcludingZero := mk_range 1 255.
Definition Int8Range := mk_range (-128) 127.
Definition Int8RangeExcludingLow := mk_range (-127) 127.

(* The targets that kernel_default.h distinguishes (71-115); detect_platform.h
   60-160 defines at most one of the NEON, MSA, SSE4 and AVX2 tokens. *)
Inductive platform : Type :=
  | Neon32 | Neon64 (dotprod : bool) | Msa | Sse4_32 | Sse4_64 | Avx2_64 | Generic.
Inductive kname : Type :=
  | K_NEON_32_Kernel12x4Depth2 | K_NEON_32_Kernel12x4Depth2Assuming12BitProducts
  | K_NEON_32bit_Int8 | K_NEON_32bit_Int8_Int8Inputs
  | K_NEON_64_Kernel12x8Depth2 | K_NEON_64_Kernel12x8Depth4_dotprod
  | K_NEON_64bit_Int8 | K_NEON_64bit_Int8_Int8Inputs
  | K_MSA_Kernel12x8Depth2 | K_MSA_Int8
  | K_SSE4_32_Kernel4x4Depth2 | K_SSE4_64_Kernel12x4Depth2 | K_AVX2_64_Kernel24x8Depth2
  | K_Reference.
(* template arguments <MaxProductIsLessThan4096, IsUnsigned, LhsNonZero> *)
Definition targs : Type := (bool * bool * bool)%type.
(* GEMMLOWP_SET_DEFAULT_KERNEL, the full specialisations: kernel_default.h 68-115 *)
Definition full_specialisations (p : platform) : list (targs * kname) :=
  match p with
  | Neon32 =>
      [((false, true, false), K_NEON_32_Kernel12x4Depth2);
       ((true, true, false), K_NEON_32_Kernel12x4Depth2Assuming12BitProducts);
       ((false, true, true), K_NEON_32bit_Int8);
       ((false, false, true), K_NEON_32bit_Int8_Int8Inputs)]
  | Neon64 true =>
      [((false, true, false), K_NEON_64_Kernel12x8Depth4_dotprod);
       ((false, false, true), K_NEON_64bit_Int8_Int8Inputs)]
  | Neon64 false =>
      [((false, true, false), K_NEON_64_Kernel12x8Depth2);
       ((false, true, true), K_NEON_64bit_Int8);
       ((false, false, true), K_NEON_64bit_Int8_Int8Inputs)]
  | Msa => [((false, true, false), K_MSA_Kernel12x8Depth2); ((false, true, true), K_MSA_Int8)]
  | Sse4_32 => [((false, true, false), K_SSE4_32_Kernel4x4Depth2)]
  | Sse4_64 => [((false, true, false), K_SSE4_64_Kernel12x4Depth2)]
  | Avx2_64 => [((false, true, false), K_AVX2_64_Kernel24x8Depth2)]
  | Generic => [((false, true, false), K_Reference)]
  end.
Definition targs_eqb (a b : targs) : bool :=
  let '(a1, a2, a3) := a in let '(b1, b2, b3) := b in Bool.eqb a1 b1 && Bool.eqb a2 b2 && Bool.eqb a3 b3.
(* Template instantiation of DefaultKernelImpl (kernel_default.h 28-44): a full
   specialisation wins; of the partial ones <true, true, z> (35-37) and
   <m, true, true> (42-44) neither is more specialised, so both matching is an
   ambiguity; the primary template is empty.  None: the program does not
   compile.  The base class chain has at most two steps. *)
Fixpoint instantiate (fuel : nat) (full : list (targs * kname)) (a : targs) : option kname :=
  match fuel with
  | O => None
  | S fuel =>
      match find (fun e => targs_eqb (fst e) a) full with
      | Some e => Some (snd e)
      | None =>
          let '(m, u, z) := a in
          match m && u, u && z with
          | true, true => None
          | true, false => instantiate fuel full (false, true, z)
          | false, true => instantiate fuel full (m, true, false)
          | false, false => None
          end
      end
  end.
(* kernel_default.h 46-54 *)
Definition kernel_args (l r : operand_range) : targs :=
  (or_max l * or_max r <? 4096, 0 <=? or_min l,
   (0 <? or_min l) || ((or_max l <=? 127) && (-128 <? or_min l))).
Definition DefaultKernel (p : platform) (l r : operand_range) : option kname :=
  instantiate 3 (full_specialisations p) (kernel_args l r).
