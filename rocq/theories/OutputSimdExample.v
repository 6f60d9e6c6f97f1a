(* OutputSimdExample.v: instances of the theorems about the vectorised output
   code, and its deviations from the scalar code *)
From Verif Require Import Base BaseLemmas FixedPointModel FixedPointSpec CommonModel PackModel GemmSpec ComputeModel OutputModel OutputSpec
  OutputProofs UnpackModel UnpackProofs OutputSimdModel OutputSimdSpec GemmModel GemmContract UnpackSpec.

(* a block of 13 x 14 entries at (2, 1) of a 16 x 16 result, with 8x8, 4x4, 1x4,
   8x4, 8x1, 4x1 and 1x1 tiles when the result is row-major *)
Definition xu_fmt : kernel_fmt := mk_kernel_fmt (mk_side_fmt 4 16 CWidthMajor 1 FInt8) (mk_side_fmt 4 16 CWidthMajor 1 FInt8) 16.
Definition xu_dst (o : map_order) : matrix_map := mk_map 100 16 16 20 o.
Definition xu_blk : bounds := mk_bounds 2 1 13 14.
Definition xu_map : matrix_map := mk_map 0 13 14 16 ColMajor.
Definition xuA (r c : Z) : Z := 20 * r * r + 25 * c * c - 46 * r * c + 100 * r - 500.
Definition xu_src : mem := fun a => Some (xuA (a mod 16) (a / 16)).
Definition xu_bias : vmap := mk_vmap (fun a => if (0 <=? a) && (a <? 16) then Some (a * a - 90) else None) 0 16.
Definition xu_sat (T : simd) : stage := match T with Sse | Mips Rev6 => SSatU8 | Neon => SSatI8 | Mips _ => STruncU8 end.
Definition xu_pipe (T : simd) : list stage := [SBias (VMap VRow xu_bias); SByFixedPoint (3 * 2 ^ 28) 3 7; SClamp (-100) 200; xu_sat T].
Definition xu_lo : vec := VMap VCol (mk_vmap (fun a => Some (a - 128)) 0 13).
Definition xu_ro : vec := VDup VRow (-120) 14.
Definition xuP (r c : Z) : Z := unpacked 128 128 5 (xuA r c) (r - 3) (7 - c) (r - 128) (-120).
Definition xu_out (T : simd) (r c : Z) : Z :=
  match pipe_at Trap (xu_pipe T) r c (xuP (r - 2) (c - 1)) with Some x => x | None => 0 end.

Definition fitsb (x : Z) : bool := (- 2147483648 <=? x) && (x <=? 2147483647).
Definition xu_check (T : simd) (q : Z * Z) : bool :=
  let (r, c) := q in
  let lo := r - 128 in let ro := -120 in let sl := r - 3 in let sr := 7 - c in
  fitsb (lo + 128) && fitsb (ro + 128) && fitsb (sl * (ro + 128)) && fitsb (xuA r c + sl * (ro + 128)) && fitsb ((ro + 128) * 5) &&
  fitsb (sr + (ro + 128) * 5) && fitsb ((sr + (ro + 128) * 5) * (lo + 128)) && fitsb (xuP r c) && fitsb (xuA r c) &&
  (wrapS 32 (xuP r c) =? xuP r c) &&
  match pipe_at Trap (xu_pipe T) (2 + r) (1 + c) (xuP r c) with Some _ => true | None => false end.
Lemma xu_checked T r c : 0 <= r < 13 -> 0 <= c < 14 -> xu_check T (r, c) = true.
Proof.
  intros Hr Hc. assert (E : forallb (xu_check T) (list_prod (zrange 13) (zrange 14)) = true) by (destruct T as [| |[]]; vm_compute; reflexivity).
  rewrite forallb_forall in E. apply E. apply in_prod; now apply zrange_In.
Qed.
Lemma fitsb_fits x : fitsb x = true -> fits 32 x.
Proof. unfold fitsb, fits, int_min, int_max. change (2 ^ (32 - 1)) with 2147483648. lia. Qed.

Lemma xu_inputs : unpack_inputs xu_blk xu_src xu_map (fun a => Some (a - 3)) (fun a => Some (7 - a)) xu_lo xu_ro
  xuA (fun r => r - 3) (fun c => 7 - c) (fun r => r - 128) (fun _ => -120).
Proof.
  assert (F : forall x, - 1000 <= x <= 1000 -> fits 32 x).
  { intros x Hx. apply fitsb_fits. unfold fitsb. lia. }
  split; [reflexivity|]. split; [reflexivity|]. split; [exact I|]. cbn [bb_rows bb_cols xu_blk]. split; [|split].
  - intros r c Hr Hc. split.
    + unfold xu_src, entry_addr, xu_map. cbn [mm_base mm_order mm_stride]. f_equal.
      replace ((0 + r + c * 16) mod 16) with r by lia. replace ((0 + r + c * 16) / 16) with c by lia. reflexivity.
    + pose proof (xu_checked Sse r c Hr Hc) as E. unfold xu_check in E. repeat (apply andb_prop in E as (E & ?)). now apply fitsb_fits.
  - intros r Hr. split; [reflexivity|]. split; [apply F; lia|]. split; [cbn; f_equal; lia|apply F; lia].
  - intros c Hc. split; [reflexivity|]. split; [apply F; lia|]. split; [reflexivity|apply F; lia].
Qed.
Lemma xu_values T r c : 0 <= r < 13 -> 0 <= c < 14 ->
  (Trap = Wrap \/ unpack_fits 128 128 5 (xuA r c) (r - 3) (7 - c) (r - 128) (-120)) /\
  pipe_at Trap (xu_pipe T) (2 + r) (1 + c) (wrapS 32 (xuP r c)) = Some (xu_out T (2 + r) (1 + c)) /\
  pipe_safe T Trap (xu_pipe T) (2 + r) (1 + c) (wrapS 32 (xuP r c)).
Proof.
  intros Hr Hc. pose proof (xu_checked T r c Hr Hc) as E. unfold xu_check in E.
  apply andb_prop in E as (E & Ep). apply andb_prop in E as (E & Ew). apply Z.eqb_eq in Ew. rewrite Ew.
  do 8 (apply andb_prop in E as (E & ?)).
  repeat match goal with H : fitsb _ = true |- _ => apply fitsb_fits in H end.
  split; [right; unfold unpack_fits; do 7 (split; [assumption|]); assumption|]. split.
  - unfold xu_out. replace (2 + r - 2) with r by lia. replace (1 + c - 1) with c by lia. destruct (pipe_at _ _ _ _ _); [reflexivity|discriminate].
  - cbn [pipe_safe xu_pipe]. split.
    { unfold stage_safe, entry_i32, entry_of, xu_bias. cbn [vm_mem vm_base]. intros x.
      assert (G : 0 <= 0 + (1 + c) <= 15) by lia. revert G. generalize (0 + (1 + c)). clear. intros z G.
      replace ((0 <=? z) && (z <? 16)) with true by lia. intros H. injection H as <-. unfold i32. nia. }
    intros y _. split; [cbn; unfold i32; lia|]. intros z _. split; [cbn; unfold i32; lia|]. intros u _. split; [destruct T as [| |[]]; exact I|]. auto.
Qed.
Lemma xu_inside o : block_inside xu_blk (xu_dst o).
Proof. unfold block_inside. cbn. lia. Qed.
Lemma xu_valid o : valid_view (fun _ => Some 0) (xu_dst o).
Proof. split; [eauto|]. destruct o; cbn; lia. Qed.

(* what the models compute on it: the memory after the stores *)
Definition xu_final (T : simd) (o : map_order) : option (list Z) :=
  let* log := UnpackResultV T Trap xu_fmt (match T with Neon => I8 | _ => U8 end) (fun a => a) (xu_dst o) xu_blk xu_src xu_map 5
    (fun a => Some (a - 3)) (fun a => Some (7 - a)) xu_lo xu_ro (xu_pipe T) in
  let* after := perform log (fun _ => Some 0) in
  mapM after [entry_addr (xu_dst o) 2 1; entry_addr (xu_dst o) 5 9; entry_addr (xu_dst o) 10 4; entry_addr (xu_dst o) 14 3;
              entry_addr (xu_dst o) 14 14; entry_addr (xu_dst o) 13 13; entry_addr (xu_dst o) 1 1; entry_addr (xu_dst o) 2 15].
Lemma xu_final_values :
  (forall o, In o [RowMajor; ColMajor] -> xu_final Sse o = Some [0; 34; 55; 153; 64; 58; 0; 0]) /\
  (forall o, In o [RowMajor; ColMajor] -> xu_final Neon o = Some [-22; 34; 55; 127; 64; 58; 0; 0]) /\
  (forall o, In o [RowMajor; ColMajor] -> xu_final (Mips Rev6) o = Some [0; 34; 55; 153; 64; 58; 0; 0]) /\
  (forall v o, In v [Rev2; NoAsm] -> In o [RowMajor; ColMajor] -> xu_final (Mips v) o = Some [234; 34; 55; 153; 64; 58; 0; 0]).
Proof.
  split; [intros o [<-|[<-|[]]]; vm_compute; reflexivity|]. split; [intros o [<-|[<-|[]]]; vm_compute; reflexivity|].
  split; [intros o [<-|[<-|[]]]; vm_compute; reflexivity|]. intros v o [<-|[<-|[]]] [<-|[<-|[]]]; vm_compute; reflexivity.
Qed.

(* five equal accumulators in one column: the first four are unpacked as a
   register, the last as a scalar *)
Definition col5 (T : simd) (v : Z) (p : list stage) : option (list (Z * Z)) :=
  UnpackResultV T Wrap xu_fmt I32 (fun _ => 0) (mk_map 0 5 1 5 ColMajor) (mk_bounds 0 0 5 1) (fun _ => Some v) (mk_map 0 5 1 5 ColMajor) 0
    (fun _ => Some 0) (fun _ => Some 0) (VDup VCol 0 5) (VDup VRow 0 1) p.
Lemma left_shift_position T : exists v mult e x y,
  fits 32 v /\ fits 32 mult /\ 0 < e <= 30 /\ unpacked 128 128 0 v 0 0 0 0 = v /\
  col5 T v [SScaleExp mult e 0] = Some [(0, x); (1, x); (2, x); (3, x); (4, y)] /\ x <> y.
Proof.
  exists 1073741825, 1073741824, 1, (-1073741823), 1073741824. split; [vm_compute; split; discriminate|]. split; [vm_compute; split; discriminate|].
  split; [lia|]. split; [reflexivity|]. split; [destruct T as [| |[]]; vm_compute; reflexivity|lia].
Qed.
Lemma min_product_position : exists v mult x y,
  fits 32 v /\ fits 32 mult /\ unpacked 128 128 0 v 0 0 0 0 = v /\
  col5 Sse v [SByFixedPoint mult 0 0] = Some [(0, x); (1, x); (2, x); (3, x); (4, y)] /\ x <> y.
Proof.
  exists (-2147483648), (-2147483648), (-2147483648), 2147483647. split; [vm_compute; split; discriminate|]. split; [vm_compute; split; discriminate|].
  split; [reflexivity|]. split; [vm_compute; reflexivity|lia].
Qed.
