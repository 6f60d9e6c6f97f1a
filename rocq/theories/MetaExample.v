(* MetaExample.v: a small call used in the examples of Props_Meta.v *)
From Coq Require Import SpecFloat.
From Verif Require Import Base FixedPointSpec EightBitModel EightBitSpec MetaModel MetaSpec MetaRefuted.

(* a 2x9 matrix times a 9x3 matrix, column major result *)
Definition mx_args : args := mk_args true false false 2 3 9 (0%nat, 5) (-100) 9 (1%nat, 2) 7 9 (2%nat, 3) 2 A8B8.
Definition mx_mem : memories := mk_memories (fun b i => Some ((i * (37 + 60 * Z.of_nat b) + 11) mod 256)) (fun _ _ => Some (S754_zero false)).
Definition mx_out : list (Z * Z) :=
  map (fun q => (c_pos mx_args (fst q) (snd q), u8_result mx_args mx_mem 3000 5 11 (fst q) (snd q))) [(0, 0); (1, 0); (0, 1); (1, 1); (0, 2); (1, 2)].
Lemma mx_buffers : fast_buffers mx_args mx_mem (bytes mx_mem 2).
Proof.
  split; [|split].
  - intros r d _ _. eexists. split; [reflexivity|]. match goal with |- 0 <= ?a mod 256 <= 255 => pose proof (Z.mod_pos_bound a 256 eq_refl) end. lia.
  - intros d c _ _. eexists. split; [reflexivity|]. match goal with |- 0 <= ?a mod 256 <= 255 => pose proof (Z.mod_pos_bound a 256 eq_refl) end. lia.
  - intros r c _ _. discriminate.
Qed.
