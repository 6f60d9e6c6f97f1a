(* PackSpec.v: what packing one register block has to do *)
From Verif Require Import Base CommonModel PackModel.

(* offset of (w,d) inside a cell *)
Definition cell_off (f : side_fmt) (w d : Z) : Z :=
  match sf_order f with
  | CDepthMajor => w + d * sf_cw f
  | CWidthMajor => d + w * sf_cd f
  | CDiagonal => ((sf_cw f + w - d) * sf_cw f + d) mod (sf_cw f * sf_cw f)
  end.
(* offset of (w,d) inside a run: cells side by side along the width, then
   along the depth (kernel.h 40-118) *)
Definition run_index (f : side_fmt) (w d : Z) : Z :=
  (d / sf_cd f * sf_cells f + w / sf_cw f) * (sf_cw f * sf_cd f)
  + cell_off f (w mod sf_cw f) (d mod sf_cd f).

(* A complete block g of source values (uint8 or int8, as the kernel format says), sf_width slices wide and kreg levels
   deep, is put at the current position in the order of the kernel format, less
   the zero point and modulo 256; the sums of its slices increase by the sums of
   the packed values; the position moves on by one block; nothing else changes.
   In Trap mode the sums are small enough not to overflow.  Formats with int8
   input are only ever packed from width-major sources: the code for the other
   order does not compile (pack.h 270 makes a SideMap of uint8). *)
Definition pack_correct_at (m : ovf) (f : side_fmt) (kreg : Z) (pack : side_map -> Z -> packed -> option packed)
           (src : side_map) (sw : Z) (b : packed) (g : Z -> Z -> Z) (s : Z -> Z) : Prop :=
  (sf_kind f = FInt8Inputs -> sm_order src = SWidthMajor) ->
  sm_width src = sf_width f -> sm_depth src = kreg ->
  (forall w d, 0 <= w < sf_width f -> 0 <= d < kreg -> sm_get src w d = Some (g w d) /\ in_min f <= g w d <= in_min f + 255) ->
  (forall w d, 0 <= w < sf_width f -> 0 <= d < kreg -> exists v, pk_data b (pk_pos b + run_index f w d) = Some v) ->
  (forall w, 0 <= w < sf_width f -> pk_sums b (sw + w) = Some (s w) /\ - 2 ^ 31 <= s w <= 2 ^ 31 - 1) ->
  (m = Wrap \/ forall w, 0 <= w < sf_width f -> Z.abs (s w) + 255 * kreg <= 2 ^ 31 - 1) ->
  exists b', pack src sw b = Some b' /\
    (forall w d, 0 <= w < sf_width f -> 0 <= d < kreg ->
       pk_data b' (pk_pos b + run_index f w d) = Some ((g w d - sf_zp f) mod 256)) /\
    (forall a, (forall w d, 0 <= w < sf_width f -> 0 <= d < kreg -> a <> pk_pos b + run_index f w d) ->
       pk_data b' a = pk_data b a) /\
    (forall w, 0 <= w < sf_width f ->
       pk_sums b' (sw + w) = Some (wrapS 32 (s w + sumZ (fun d => g w d - sf_zp f) 0 kreg))) /\
    (forall a, a < sw \/ sw + sf_width f <= a -> pk_sums b' a = pk_sums b a) /\
    pk_pos b' = pk_pos b + sf_width f * kreg.

Definition pack_correct (m : ovf) (f : side_fmt) (kreg : Z) (pack : side_map -> Z -> packed -> option packed) : Prop :=
  forall src sw b g s, pack_correct_at m f kreg pack src sw b g s.
