(* TransformBlocks.v: what the straight-line pieces of the transform kernels do to
   a block of elements, for any interpretation of the operations on lanes. *)
From Verif Require Import Base TransformModel TransformKernels.

Section Stream.
Context {V : Type} (o : ops V) (param : pname -> V) (isz osz : nat).
(* execution on the elements still to be read and written *)
Fixpoint sexec (p : list instr) (c : cpu (V := V)) (xs bs : list V) : option (cpu (V := V) * list V * list V * list V) :=
  match p with
  | [] => Some (c, xs, bs, [])
  | i :: t =>
      match i with
      | Ld sh =>
          let n := s_count isz sh in
          if Nat.leb n (length xs) then sexec t (loaded o isz sh (firstn n xs) c) (skipn n xs) bs else None
      | LdBias sh =>
          let n := s_count isz sh in
          if Nat.leb n (length bs) then sexec t (loaded o isz sh (firstn n bs) c) xs (skipn n bs) else None
      | St sh =>
          match sexec t c xs bs with
          | Some (c', xs', bs', outs) => Some (c', xs', bs', to_store o osz sh c ++ outs)
          | None => None
          end
      | _ => match alu o param i c with Some c => sexec t c xs bs | None => None end
      end
  end.
End Stream.

(* the pieces of a kernel: after the first one the registers are ready, and the
   others keep them so and compute f of each element (and its bias) *)
Record pieces_ok {V} (o : ops V) (param : pname -> V) (k : tkernel) (f : V -> V -> V) (ready : cpu (V := V) -> Prop) : Prop := mk_pieces {
  po_pre : forall c, length (c_v c) = 32%nat -> exists c', sexec o param (tk_isz k) (tk_osz k) (tk_pre k) c [] [] = Some (c', [], [], []) /\ ready c';
  po_body : forall c xs bs, ready c -> length xs = 16%nat -> length bs = (if tk_rows k then 16%nat else 0%nat) ->
    exists c', sexec o param (tk_isz k) (tk_osz k) (tk_body k) c xs bs =
      Some (c', [], [], map (fun xb => f (fst xb) (snd xb)) (combine xs (if tk_rows k then bs else xs))) /\ ready c';
  po_post : forall l c xs bs, 0 < l < 16 -> ready c -> length xs = Z.to_nat l -> length bs = (if tk_rows k then Z.to_nat l else 0%nat) ->
    exists c', sexec o param (tk_isz k) (tk_osz k) (tk_post k l) c xs bs =
      Some (c', [], [], map (fun xb => f (fst xb) (snd xb)) (combine xs (if tk_rows k then bs else xs))) /\ ready c' }.

Section Families.
Context {V : Type} (o : ops V) (param : pname -> V).
Local Notation dup w x := (lanes_of o w (fun _ => x)).

Definition requantize_f (x : V) : V :=
  o_sqxtun o (o_sqxtn o (o_fcvtns o (o_fadd o (o_fmul o (o_fadd o (o_fmul o (o_fsub o (o_scvtf o x)
    (param P_input_range_offset)) (param P_input_range_scale)) (o_fsub o (param P_input_range_min) (param P_output_range_min)))
    (param P_one_over_output_range_scale)) (param P_output_range_offset)))).
Definition requantize_ready (c : cpu (V := V)) : Prop := exists j0 j1 j2 j3 tl,
  c_v c = j0 :: j1 :: j2 :: j3 :: dup 4%nat (o_fsub o (param P_input_range_min) (param P_output_range_min)) :: dup 4%nat (param P_output_range_min) ::
    dup 4%nat (param P_input_range_offset) :: dup 4%nat (param P_input_range_scale) :: dup 4%nat (param P_one_over_output_range_scale) ::
    dup 4%nat (param P_output_range_offset) :: tl.
Definition quantize_f (x : V) : V :=
  o_sqxtun o (o_sqxtn o (o_fcvtzs o (o_fadd o (o_fmul o (o_fsub o x (param P_range_min)) (param P_range_scale)) (param P_range_offset)))).
Definition quantize_ready (c : cpu (V := V)) : Prop := exists j0 j1 j2 j3 tl,
  c_v c = j0 :: j1 :: j2 :: j3 :: dup 4%nat (param P_range_min) :: dup 4%nat (param P_range_offset) :: dup 4%nat (param P_range_scale) :: tl.
Definition dequantize_f (x : V) : V :=
  o_fadd o (o_fmul o (o_fsub o (o_scvtf o (o_sxtl o (o_uxtl o x))) (param P_range_offset)) (param P_range_scale)) (param P_range_min).
Definition minmax_f (x : V) : V := o_umin o (o_umax o x (param P_min)) (param P_max).
Definition minmax_ready (c : cpu (V := V)) : Prop := exists j0 j1 j2 j3 tl,
  c_v c = j0 :: j1 :: j2 :: j3 :: dup 1%nat (param P_min) :: dup 1%nat (param P_max) :: tl.
Definition biasadd_f (x b : V) : V :=
  o_fcvtzs o (o_fadd o (o_fmul o (o_fsub o (o_fadd o
    (o_fadd o (o_fmul o (o_scvtf o (o_sxtl o (o_uxtl o x))) (param P_input_range_scale)) (param P_input_range_min))
    (o_fadd o (o_fmul o (o_scvtf o (o_sxtl o (o_uxtl o b))) (param P_bias_range_scale)) (param P_bias_range_min)))
    (param P_output_range_min)) (param P_one_over_output_range_scale)) (param P_output_range_offset)).
Definition biasadd_ready (c : cpu (V := V)) : Prop := exists j0 j1 j2 j3 j4 j5 j6 j7 tl,
  c_v c = j0 :: j1 :: j2 :: j3 :: j4 :: j5 :: j6 :: j7 :: dup 4%nat (param P_input_range_min) :: dup 4%nat (param P_input_range_scale) ::
    dup 4%nat (param P_bias_range_min) :: dup 4%nat (param P_bias_range_scale) :: dup 4%nat (param P_output_range_min) ::
    dup 4%nat (param P_one_over_output_range_scale) :: dup 4%nat (param P_output_range_offset) :: tl.
End Families.

Lemma leftovers_cases l : 0 < l < 16 -> In l [1; 2; 3; 4; 5; 6; 7; 8; 9; 10; 11; 12; 13; 14; 15].
Proof. intros H. cbn. lia. Qed.
Ltac explode xs H := (* xs of a known length *)
  repeat match type of H with
  | length xs = S _ => let x := fresh "x" in destruct xs as [|x xs]; [discriminate H|cbn in H; apply Nat.succ_inj in H]
  | length xs = O => destruct xs; [clear H|discriminate H]
  end.
Ltac run_piece :=
  eexists; split; [vm_compute; reflexivity|].

Ltac known_length xs H := match type of H with _ = ?n => let m := eval vm_compute in n in change (length xs = m) in H end; explode xs H.

Section Proofs.
Context {V : Type} (o : ops V) (param : pname -> V).
Lemma requantize_pieces : pieces_ok o param RequantizeK (fun x _ => requantize_f o param x) (requantize_ready o param).
Proof.
  split.
  - intros [w0 v] H. cbn in H. explode v H. run_piece. unfold requantize_ready. do 5 eexists. reflexivity.
  - intros [w0 v] xs bs (j0 & j1 & j2 & j3 & tl & E) Hx Hb. cbn in E. subst v. explode xs Hx. known_length bs Hb. run_piece.
    unfold requantize_ready. do 5 eexists. reflexivity.
  - intros l [w0 v] xs bs Hl (j0 & j1 & j2 & j3 & tl & E) Hx Hb. cbn in E. subst v. apply leftovers_cases in Hl. cbn [In] in Hl.
    repeat (destruct Hl as [<-|Hl]); try contradiction; known_length xs Hx; known_length bs Hb;
    (run_piece; unfold requantize_ready; do 5 eexists; reflexivity).
Qed.
Lemma quantize_pieces : pieces_ok o param QuantizeK (fun x _ => quantize_f o param x) (quantize_ready o param).
Proof.
  split.
  - intros [w0 v] H. cbn in H. explode v H. run_piece. unfold quantize_ready. do 5 eexists. reflexivity.
  - intros [w0 v] xs bs (j0 & j1 & j2 & j3 & tl & E) Hx Hb. cbn in E. subst v. explode xs Hx. known_length bs Hb. run_piece.
    unfold quantize_ready. do 5 eexists. reflexivity.
  - intros l [w0 v] xs bs Hl (j0 & j1 & j2 & j3 & tl & E) Hx Hb. cbn in E. subst v. apply leftovers_cases in Hl. cbn [In] in Hl.
    repeat (destruct Hl as [<-|Hl]); try contradiction; known_length xs Hx; known_length bs Hb;
    (run_piece; unfold quantize_ready; do 5 eexists; reflexivity).
Qed.
Lemma dequantize_pieces : pieces_ok o param DequantizeK (fun x _ => dequantize_f o param x) (quantize_ready o param).
Proof.
  split.
  - intros [w0 v] H. cbn in H. explode v H. run_piece. unfold quantize_ready. do 5 eexists. reflexivity.
  - intros [w0 v] xs bs (j0 & j1 & j2 & j3 & tl & E) Hx Hb. cbn in E. subst v. explode xs Hx. known_length bs Hb. run_piece.
    unfold quantize_ready. do 5 eexists. reflexivity.
  - intros l [w0 v] xs bs Hl (j0 & j1 & j2 & j3 & tl & E) Hx Hb. cbn in E. subst v. apply leftovers_cases in Hl. cbn [In] in Hl.
    repeat (destruct Hl as [<-|Hl]); try contradiction; known_length xs Hx; known_length bs Hb;
    (run_piece; unfold quantize_ready; do 5 eexists; reflexivity).
Qed.
Lemma minmax_pieces : pieces_ok o param MinMaxK (fun x _ => minmax_f o param x) (minmax_ready o param).
Proof.
  split.
  - intros [w0 v] H. cbn in H. explode v H. run_piece. unfold minmax_ready. do 5 eexists. reflexivity.
  - intros [w0 v] xs bs (j0 & j1 & j2 & j3 & tl & E) Hx Hb. cbn in E. subst v. explode xs Hx. known_length bs Hb. run_piece.
    unfold minmax_ready. do 5 eexists. reflexivity.
  - intros l [w0 v] xs bs Hl (j0 & j1 & j2 & j3 & tl & E) Hx Hb. cbn in E. subst v. apply leftovers_cases in Hl. cbn [In] in Hl.
    repeat (destruct Hl as [<-|Hl]); try contradiction; known_length xs Hx; known_length bs Hb;
    (run_piece; unfold minmax_ready; do 5 eexists; reflexivity).
Qed.
Lemma biasadd_pieces : pieces_ok o param BiasAddK (biasadd_f o param) (biasadd_ready o param).
Proof.
  split.
  - intros [w0 v] H. cbn in H. explode v H. run_piece. unfold biasadd_ready. do 9 eexists. reflexivity.
  - intros [w0 v] xs bs (j0 & j1 & j2 & j3 & j4 & j5 & j6 & j7 & tl & E) Hx Hb. cbn in E. subst v. explode xs Hx. known_length bs Hb. run_piece.
    unfold biasadd_ready. do 9 eexists. reflexivity.
  - intros l [w0 v] xs bs Hl (j0 & j1 & j2 & j3 & j4 & j5 & j6 & j7 & tl & E) Hx Hb. cbn in E. subst v. apply leftovers_cases in Hl. cbn [In] in Hl.
    repeat (destruct Hl as [<-|Hl]); try contradiction; known_length xs Hx; known_length bs Hb;
    (run_piece; unfold biasadd_ready; do 9 eexists; reflexivity).
Qed.
End Proofs.
