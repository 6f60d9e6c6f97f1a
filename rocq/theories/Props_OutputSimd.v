(* Props_OutputSimd.v: property theorems C61, about the SSE, NEON and MSA code that
   turns accumulators into results (OutputSimdModel.v) and its agreement with the
   scalar code (UnpackModel.v).  T is the target, t the type of the results. *)
From Verif Require Import Base FixedPointModel FixedPointSpec CommonModel PackModel GemmSpec ComputeModel OutputModel OutputSpec
  UnpackModel OutputSimdModel OutputSimdSpec GemmContract UnpackSpec OutputSimdProps OutputSimdExample.

(* C61: unpacking a block in registers stores each entry of the block exactly
   once, stores nothing else, and stores what the scalar code stores: the
   pipeline applied entry by entry to the accumulator of the offset product *)
Theorem C61_vector_unpack_equals_scalar :
  forall T m k t junk dst blk src src_map depth lsm rsm lo ro p A SL SR LO RO out before,
  let P r c := unpacked (sf_zp (kf_lhs k)) (sf_zp (kf_rhs k)) depth (A r c) (SL r) (SR c) (LO r) (RO c) in
  block_inside blk dst -> valid_view before dst ->
  unpack_inputs blk src src_map lsm rsm lo ro A SL SR LO RO ->
  pipe_ty T p = Some t ->
  (forall r c, 0 <= r < bb_rows blk -> 0 <= c < bb_cols blk ->
     (m = Wrap \/ unpack_fits (sf_zp (kf_lhs k)) (sf_zp (kf_rhs k)) depth (A r c) (SL r) (SR c) (LO r) (RO c)) /\
     pipe_at m p (bb_row blk + r) (bb_col blk + c) (wrapS 32 (P r c)) = Some (out (bb_row blk + r) (bb_col blk + c)) /\
     pipe_safe T m p (bb_row blk + r) (bb_col blk + c) (wrapS 32 (P r c))) ->
  (forall r c, in_block blk r c -> in_ty t (out r c)) /\
  exists log log' after after',
    UnpackResultV T m k t junk dst blk src src_map depth lsm rsm lo ro p = Some log /\
    UnpackResult m k junk dst blk src src_map depth lsm rsm lo ro p = Some log' /\
    block_stores_once dst blk out log /\ block_stores_once dst blk out log' /\
    perform log before = Some after /\ block_stored before after dst blk out /\
    perform log' before = Some after' /\ block_stored before after' dst blk out.
Proof. exact unpack_simd_full. Qed.
Print Assumptions C61_vector_unpack_equals_scalar.
(* a 13 x 14 block at (2, 1) of a 16 x 16 result: the hypotheses hold, and eight
   of the entries as the model computes them, the last two outside the block *)
Example C61_example : forall T o,
  block_inside xu_blk (xu_dst o) /\ valid_view (fun _ => Some 0) (xu_dst o) /\
  unpack_inputs xu_blk xu_src xu_map (fun a => Some (a - 3)) (fun a => Some (7 - a)) xu_lo xu_ro
    xuA (fun r => r - 3) (fun c => 7 - c) (fun r => r - 128) (fun _ => -120) /\
  pipe_ty T (xu_pipe T) = Some (match T with Neon => I8 | _ => U8 end) /\
  (forall r c, 0 <= r < 13 -> 0 <= c < 14 ->
    (Trap = Wrap \/ unpack_fits 128 128 5 (xuA r c) (r - 3) (7 - c) (r - 128) (-120)) /\
    pipe_at Trap (xu_pipe T) (2 + r) (1 + c) (wrapS 32 (xuP r c)) = Some (xu_out T (2 + r) (1 + c)) /\
    pipe_safe T Trap (xu_pipe T) (2 + r) (1 + c) (wrapS 32 (xuP r c))).
Proof.
  intros T o. split; [apply xu_inside|]. split; [apply xu_valid|]. split; [exact xu_inputs|].
  split; [destruct T as [| |[]]; reflexivity|apply xu_values].
Qed.
Example C61_example_values :
  (forall o, In o [RowMajor; ColMajor] -> xu_final Sse o = Some [0; 34; 55; 153; 64; 58; 0; 0]) /\
  (forall o, In o [RowMajor; ColMajor] -> xu_final Neon o = Some [-22; 34; 55; 127; 64; 58; 0; 0]) /\
  (forall o, In o [RowMajor; ColMajor] -> xu_final (Mips Rev6) o = Some [0; 34; 55; 153; 64; 58; 0; 0]) /\
  (forall v o, In v [Rev2; NoAsm] -> In o [RowMajor; ColMajor] -> xu_final (Mips v) o = Some [234; 34; 55; 153; 64; 58; 0; 0]).
Proof. exact xu_final_values. Qed.

(* the pairs swr, swl of the MSA stores for processors before revision 6 store the
   four bytes of the word at any address, aligned or not, and nothing else *)
Theorem C61_swr_swl_store_the_word : forall a v before,
  (forall i, 0 <= i < 4 -> exists x, before (a + i) = Some x) ->
  exists after, perform (swr a v ++ swl (a + 3) v) before = Some after /\
    forall x, after x = if (a <=? x) && (x <? a + 4) then Some (v / 2 ^ (8 * (x - a)) mod 256) else before x.
Proof. exact swr_swl_word. Qed.
Print Assumptions C61_swr_swl_store_the_word.
(* at 1002, which is 2 modulo 4: two bytes by each *)
Example C61_example_swr_swl :
  swr 1002 1144201745 = [(1002, 17); (1003, 34)] /\ swl 1005 1144201745 = [(1004, 51); (1005, 68)].
Proof. split; vm_compute; reflexivity. Qed.

(* without [pipe_safe]: the same accumulator gives different results in
   different rows, because registers wrap left shifts that the scalar code of the
   last rows saturates *)
Theorem C61_left_shift_overflow_refuted : forall T, exists v mult e x y,
  fits 32 v /\ fits 32 mult /\ 0 < e <= 30 /\ unpacked 128 128 0 v 0 0 0 0 = v /\
  col5 T v [SScaleExp mult e 0] = Some [(0, x); (1, x); (2, x); (3, x); (4, y)] /\ x <> y.
Proof. exact left_shift_position. Qed.
Print Assumptions C61_left_shift_overflow_refuted.
(* likewise for the product of two minima on SSE *)
Theorem C61_minimum_squared_refuted : exists v mult x y,
  fits 32 v /\ fits 32 mult /\ unpacked 128 128 0 v 0 0 0 0 = v /\
  col5 Sse v [SByFixedPoint mult 0 0] = Some [(0, x); (1, x); (2, x); (3, x); (4, y)] /\ x <> y.
Proof. exact min_product_position. Qed.
Print Assumptions C61_minimum_squared_refuted.
