(* UnpackSpec.v: what unpacking a block of int32 accumulators means, entry by
   entry.  No tiles, no register blocks. *)
From Verif Require Import Base FixedPointModel FixedPointSpec GemmSpec PackModel OutputModel UnpackModel OutputSimdModel GemmContract.

(* the accumulator a of a product of operands shifted by the zero points zl and
   zr, with the sums sl, sr of the shifted operands and the offsets lo, ro *)
Definition unpacked (zl zr depth a sl sr lo ro : Z) : Z :=
  a + sl * (ro + zr) + (sr + (ro + zr) * depth) * (lo + zl).
(* no int32 operation on the way overflows *)
Definition unpack_fits (zl zr depth a sl sr lo ro : Z) : Prop :=
  fits 32 (lo + zl) /\ fits 32 (ro + zr) /\ fits 32 (sl * (ro + zr)) /\ fits 32 (a + sl * (ro + zr)) /\
  fits 32 ((ro + zr) * depth) /\ fits 32 (sr + (ro + zr) * depth) /\
  fits 32 ((sr + (ro + zr) * depth) * (lo + zl)) /\ fits 32 (unpacked zl zr depth a sl sr lo ro).

Definition in_ty (t : sty) (x : Z) : Prop :=
  match t with
  | I32 => fits 32 x
  | I16 => fits 16 x
  | I8 => fits 8 x
  | U8 => 0 <= x <= 255
  end.

(* (r, c) is a position of the block; the block is inside the view *)
Definition in_block (b : bounds) (r c : Z) : Prop :=
  bb_row b <= r < bb_row b + bb_rows b /\ bb_col b <= c < bb_col b + bb_cols b.
Definition block_inside (b : bounds) (M : matrix_map) : Prop :=
  0 <= bb_row b /\ 0 <= bb_rows b /\ bb_row b + bb_rows b <= mm_rows M /\
  0 <= bb_col b /\ 0 <= bb_cols b /\ bb_col b + bb_cols b <= mm_cols M.

(* the inputs of UnpackResult: accumulators A and sums SL, SR of the block,
   offsets LO, RO, all int32 *)
Definition unpack_inputs (b : bounds) (src : mem) (src_map : matrix_map) (lsm rsm : mem) (lo ro : vec)
    (A : Z -> Z -> Z) (SL SR LO RO : Z -> Z) : Prop :=
  mm_order src_map = ColMajor /\
  (match lo with VMap s _ => s = VCol | VDup _ _ _ => True end) /\
  (match ro with VMap s _ => s = VRow | VDup _ _ _ => True end) /\
  (forall r c, 0 <= r < bb_rows b -> 0 <= c < bb_cols b ->
     src (entry_addr src_map r c) = Some (A r c) /\ fits 32 (A r c)) /\
  (forall r, 0 <= r < bb_rows b -> lsm r = Some (SL r) /\ fits 32 (SL r) /\ vec_get lo r = Some (LO r) /\ fits 32 (LO r)) /\
  (forall c, 0 <= c < bb_cols b -> rsm c = Some (SR c) /\ fits 32 (SR c) /\ vec_get ro c = Some (RO c) /\ fits 32 (RO c)).

(* [after] is [before] with the entries of the block set to out *)
Definition block_stored (before after : mem) (M : matrix_map) (b : bounds) (out : Z -> Z -> Z) : Prop :=
  (forall r c, in_block b r c -> after (entry_addr M r c) = Some (out r c)) /\
  (forall a, (forall r c, in_block b r c -> a <> entry_addr M r c) -> after a = before a).
(* each entry of the block is stored exactly once, and nothing else *)
Definition block_stores_once (M : matrix_map) (b : bounds) (out : Z -> Z -> Z) (log : list (Z * Z)) : Prop :=
  exists visits : list (Z * Z),
    log = map (fun q => (entry_addr M (fst q) (snd q), out (fst q) (snd q))) visits /\ NoDup visits /\
    forall r c, In (r, c) visits <-> in_block b r c.
