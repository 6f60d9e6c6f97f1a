(* Props_Pack.v: property theorem C17, packing of a left or right operand. *)
From Verif Require Import Base CommonModel PackModel GemmSpec PackProofs4.

(* loc is the location of entry (width, depth) in the packed block; it does
   not depend on the data.  Scratch contents (junk, b) are arbitrary.  In Trap
   mode (no signed overflow allowed) the depth must keep the sums in int32;
   in Wrap mode there is no restriction. *)
Theorem C17_pack_lhs : forall k rows cols depth nt t bp,
  kernel_fmt_ok k -> sf_kind (kf_lhs k) <> FInt8Inputs -> 0 < rows -> 0 < cols -> 0 < depth -> 0 < nt ->
  BlockParams_Init k rows cols depth nt t = Some bp ->
  exists loc : Z -> Z -> Z,
    (forall w d, 0 <= w < bp_l2_rows bp -> 0 <= d < bp_l2_depth bp ->
       0 <= loc w d < bp_l2_rows bp * bp_l2_depth bp) /\
    (forall w d w' d', 0 <= w < bp_l2_rows bp -> 0 <= d < bp_l2_depth bp ->
       0 <= w' < bp_l2_rows bp -> 0 <= d' < bp_l2_depth bp -> loc w d = loc w' d' -> w = w' /\ d = d') /\
    forall m junk input M L b,
      m = Wrap \/ 255 * bp_l2_depth bp <= 2 ^ 31 - 1 ->
      0 < mm_rows M <= bp_l2_rows bp -> mm_cols M = depth -> holds_matrix input M L ->
      byte_buffer (pk_data b) (bp_l2_rows bp * bp_l2_depth bp) -> allocated (pk_sums b) (bp_l2_rows bp) ->
      exists b', PackLhs Pack m (kf_lhs k) (kf_reg k) junk (GetSideBlockParams Lhs bp) input M b = Some b' /\
        (forall w d, 0 <= w < RoundUp (kRows k) (mm_rows M) -> 0 <= d < bp_l2_depth bp ->
           exists x, pk_data b' (loc w d) = Some x /\
             operand_value (sf_signed (kf_lhs k)) x =
             if (w <? mm_rows M) && (d <? depth) then L w d - sf_zp (kf_lhs k) else 0) /\
        (forall w, 0 <= w < bp_l2_rows bp ->
           pk_sums b' w = Some (if w <? mm_rows M
             then wrapS 32 (sumZ (fun d => L w d - sf_zp (kf_lhs k)) 0 depth) else 0)).
Proof. exact pack_lhs_generic. Qed.
Print Assumptions C17_pack_lhs.

Theorem C17_pack_rhs : forall k rows cols depth nt t bp,
  kernel_fmt_ok k -> sf_kind (kf_rhs k) <> FInt8Inputs -> 0 < rows -> 0 < cols -> 0 < depth -> 0 < nt ->
  BlockParams_Init k rows cols depth nt t = Some bp ->
  exists loc : Z -> Z -> Z,
    (forall w d, 0 <= w < bp_l2_cols bp -> 0 <= d < bp_l2_depth bp ->
       0 <= loc w d < bp_l2_cols bp * bp_l2_depth bp) /\
    (forall w d w' d', 0 <= w < bp_l2_cols bp -> 0 <= d < bp_l2_depth bp ->
       0 <= w' < bp_l2_cols bp -> 0 <= d' < bp_l2_depth bp -> loc w d = loc w' d' -> w = w' /\ d = d') /\
    forall m junk input M R b,
      m = Wrap \/ 255 * bp_l2_depth bp <= 2 ^ 31 - 1 ->
      0 < mm_cols M <= bp_l2_cols bp -> mm_rows M = depth -> holds_matrix input M R ->
      byte_buffer (pk_data b) (bp_l2_cols bp * bp_l2_depth bp) -> allocated (pk_sums b) (bp_l2_cols bp) ->
      exists b', PackRhs Pack m (kf_rhs k) (kf_reg k) junk (GetSideBlockParams Rhs bp) input M b = Some b' /\
        (forall w d, 0 <= w < RoundUp (kCols k) (mm_cols M) -> 0 <= d < bp_l2_depth bp ->
           exists x, pk_data b' (loc w d) = Some x /\
             operand_value (sf_signed (kf_rhs k)) x =
             if (w <? mm_cols M) && (d <? depth) then R d w - sf_zp (kf_rhs k) else 0) /\
        (forall w, 0 <= w < bp_l2_cols bp ->
           pk_sums b' w = Some (if w <? mm_cols M
             then wrapS 32 (sumZ (fun d => R d w - sf_zp (kf_rhs k)) 0 depth) else 0)).
Proof. exact pack_rhs_generic. Qed.
Print Assumptions C17_pack_rhs.

(* a 3x2 row-major operand of stride 5, int8 kernel with 2x4 cells: the packed
   bytes of the first register block, then the sums *)
Definition ex_fmt : kernel_fmt :=
  mk_kernel_fmt (mk_side_fmt 2 2 CWidthMajor 2 FInt8) (mk_side_fmt 2 2 CDepthMajor 1 FUint8) 4.
Definition ex_input : mem := fun a => nth_error [10; 20; 99; 99; 99; 30; 40; 99; 99; 99; 50; 60] (Z.to_nat a).
Definition ex_map : matrix_map := mk_map 0 3 2 5 RowMajor.
Definition ex_tuning : tuning :=
  {| t_l1_bytes := 100; t_l2_bytes := 1000; t_factor := {| rf_mul := fun x => Some x; rf_is_one := false |} |}.
Definition ex_stale (n : Z) : mem := fun a => if (0 <=? a) && (a <? n) then Some 77 else None.
Example C17_example :
  exists bp b', BlockParams_Init ex_fmt 3 3 2 1 ex_tuning = Some bp /\
    PackLhs Pack Trap (kf_lhs ex_fmt) 4 (fun _ => 55) (GetSideBlockParams Lhs bp) ex_input ex_map
      (mk_packed (ex_stale 16) (ex_stale 4) 0 (fun a => a)) = Some b' /\
    map (pk_data b') [0; 1; 2; 3; 4; 5; 6; 7; 8; 15]
    = map Some [138; 148; 158; 168; 178; 188; 0; 0; 0; 0] /\
    map (pk_sums b') [0; 1; 2; 3] = map Some [-226; -186; -146; 0].
Proof.
  eexists _, _. split; [vm_compute; reflexivity|]. split; [vm_compute; reflexivity|].
  split; vm_compute; reflexivity.
Qed.
