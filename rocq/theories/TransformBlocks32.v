(* TransformBlocks32.v: what the straight-line pieces of the 32-bit ARM transform
   kernels do to a block of elements, for any interpretation of the operations on
   lanes.  As TransformBlocks.v. *)
From Verif Require Import Base TransformModel TransformKernels32 TransformBlocks.

Section Families.
Context {V : Type} (o : ops V) (param : pname -> V).
Local Notation dup w x := (lanes_of o w (fun _ => x)).
(* without the offset of the output, and rounded towards zero *)
Definition requantize32_f (x : V) : V :=
  o_sqxtun o (o_sqxtn o (o_fcvtzs o (o_fmul o (o_fadd o (o_fmul o (o_fsub o (o_scvtf o x)
    (param P_input_range_offset)) (param P_input_range_scale)) (o_fsub o (param P_input_range_min) (param P_output_range_min)))
    (param P_one_over_output_range_scale)))).
Definition requantize32_ready (c : cpu (V := V)) : Prop := exists j0 j1 j2 j3 tl,
  c_v c = j0 :: j1 :: j2 :: j3 :: dup 4%nat (o_fsub o (param P_input_range_min) (param P_output_range_min)) :: dup 4%nat (param P_output_range_min) ::
    dup 4%nat (param P_input_range_offset) :: dup 4%nat (param P_input_range_scale) :: dup 4%nat (param P_one_over_output_range_scale) :: tl.
End Families.

Section Proofs.
Context {V : Type} (o : ops V) (param : pname -> V).
Lemma requantize32_pieces : pieces_ok o param Requantize32K (fun x _ => requantize32_f o param x) (requantize32_ready o param).
Proof.
  split.
  - intros [w0 v] H. cbn in H. explode v H. run_piece. unfold requantize32_ready. do 5 eexists. reflexivity.
  - intros [w0 v] xs bs (j0 & j1 & j2 & j3 & tl & E) Hx Hb. cbn in E. subst v. explode xs Hx. known_length bs Hb. run_piece.
    unfold requantize32_ready. do 5 eexists. reflexivity.
  - intros l [w0 v] xs bs Hl (j0 & j1 & j2 & j3 & tl & E) Hx Hb. cbn in E. subst v. apply leftovers_cases in Hl. cbn [In] in Hl.
    repeat (destruct Hl as [<-|Hl]); try contradiction; known_length xs Hx; known_length bs Hb;
    (run_piece; unfold requantize32_ready; do 5 eexists; reflexivity).
Qed.
Lemma quantize32_pieces : pieces_ok o param Quantize32K (fun x _ => quantize_f o param x) (quantize_ready o param).
Proof.
  split.
  - intros [w0 v] H. cbn in H. explode v H. run_piece. unfold quantize_ready. do 5 eexists. reflexivity.
  - intros [w0 v] xs bs (j0 & j1 & j2 & j3 & tl & E) Hx Hb. cbn in E. subst v. explode xs Hx. known_length bs Hb. run_piece.
    unfold quantize_ready. do 5 eexists. reflexivity.
  - intros l [w0 v] xs bs Hl (j0 & j1 & j2 & j3 & tl & E) Hx Hb. cbn in E. subst v. apply leftovers_cases in Hl. cbn [In] in Hl.
    repeat (destruct Hl as [<-|Hl]); try contradiction; known_length xs Hx; known_length bs Hb;
    (run_piece; unfold quantize_ready; do 5 eexists; reflexivity).
Qed.
Lemma dequantize32_pieces : pieces_ok o param Dequantize32K (fun x _ => dequantize_f o param x) (quantize_ready o param).
Proof.
  split.
  - intros [w0 v] H. cbn in H. explode v H. run_piece. unfold quantize_ready. do 5 eexists. reflexivity.
  - intros [w0 v] xs bs (j0 & j1 & j2 & j3 & tl & E) Hx Hb. cbn in E. subst v. explode xs Hx. known_length bs Hb. run_piece.
    unfold quantize_ready. do 5 eexists. reflexivity.
  - intros l [w0 v] xs bs Hl (j0 & j1 & j2 & j3 & tl & E) Hx Hb. cbn in E. subst v. apply leftovers_cases in Hl. cbn [In] in Hl.
    repeat (destruct Hl as [<-|Hl]); try contradiction; known_length xs Hx; known_length bs Hb;
    (run_piece; unfold quantize_ready; do 5 eexists; reflexivity).
Qed.
Lemma minmax32_pieces : pieces_ok o param MinMax32K (fun x _ => minmax_f o param x) (minmax_ready o param).
Proof.
  split.
  - intros [w0 v] H. cbn in H. explode v H. run_piece. unfold minmax_ready. do 5 eexists. reflexivity.
  - intros [w0 v] xs bs (j0 & j1 & j2 & j3 & tl & E) Hx Hb. cbn in E. subst v. explode xs Hx. known_length bs Hb. run_piece.
    unfold minmax_ready. do 5 eexists. reflexivity.
  - intros l [w0 v] xs bs Hl (j0 & j1 & j2 & j3 & tl & E) Hx Hb. cbn in E. subst v. apply leftovers_cases in Hl. cbn [In] in Hl.
    repeat (destruct Hl as [<-|Hl]); try contradiction; known_length xs Hx; known_length bs Hb;
    (run_piece; unfold minmax_ready; do 5 eexists; reflexivity).
Qed.
Lemma biasadd32_pieces : pieces_ok o param BiasAdd32K (biasadd_f o param) (biasadd_ready o param).
Proof.
  split.
  - intros [w0 v] H. cbn in H. explode v H. run_piece. unfold biasadd_ready. do 9 eexists. reflexivity.
  - intros [w0 v] xs bs (j0 & j1 & j2 & j3 & j4 & j5 & j6 & j7 & tl & E) Hx Hb. cbn in E. subst v. explode xs Hx. known_length bs Hb. run_piece.
    unfold biasadd_ready. do 9 eexists. reflexivity.
  - intros l [w0 v] xs bs Hl (j0 & j1 & j2 & j3 & j4 & j5 & j6 & j7 & tl & E) Hx Hb. cbn in E. subst v. apply leftovers_cases in Hl. cbn [In] in Hl.
    repeat (destruct Hl as [<-|Hl]); try contradiction; known_length xs Hx; known_length bs Hb;
    (run_piece; unfold biasadd_ready; do 9 eexists; reflexivity).
Qed.
End Proofs.
